(** Specification vocabulary for key derivation, the panics of [receive] and the external crypto path.
    Nothing in this file is used by the model. *)

From Coq Require Import Ascii String Arith NArith List Bool.
From Verif Require Import Bytes Base64 Utf8 Json Value Types Serde Message Envelope Sha256 Spec SpecText SpecSign SpecSeal.
Import ListNotations.
Local Open Scope string_scope.

(** ** Concat KDF (NIST SP 800-56A, RFC 7518 section 4.6.2), one round of SHA-256 *)

(** A number below 2^32 in four bytes, most significant first. *)
Definition u32 (n : N) : string :=
  String (chr (n / 16777216 mod 256)) (String (chr (n / 65536 mod 256)) (String (chr (n / 256 mod 256)) (String (chr (n mod 256)) "")))%N.
(** A text with its length in front. *)
Definition lp (s : string) : string := u32 (N.of_nat (String.length s)) ++ s.
(** What is hashed: round number 1, the secret, algorithm name, both parties' infos, and the wanted key length in bits. *)
Definition kdf_text (secret alg apu apv : string) : string := u32 1 ++ secret ++ lp alg ++ lp apu ++ lp apv ++ u32 256.
(** The lengths fit in 32 bits. *)
Definition short (s : string) : Prop := (N.of_nat (String.length s) < 4294967296)%N.
Definition info (o : option string) : string := match o with Some s => s | None => "" end.

(** ** Envelopes whose base64 texts and lengths are right *)

(** Nonce length of a wrapping algorithm. *)
Definition nonce_len (a : crypto_algorithm) : nat := match a with XC20P => 24 | _ => 12 end.
(** A recipient entry: what is there decodes to a nonce of the right length, and to a wrapped key of 32 bytes plus 16 of tag. *)
Definition entry_lengths (a : crypto_algorithm) (r : recipient) : Prop :=
  (forall t iv, map_get "iv" (jk_other (rc_header r)) = Some t -> b64_decode t = Some iv -> String.length iv = nonce_len a) /\
  (forall t tag sealed, map_get "tag" (jk_other (rc_header r)) = Some t -> b64_decode t = Some tag -> b64_decode (rc_encrypted_key r) = Some sealed ->
     String.length sealed + String.length tag = 48).
Definition envelope_lengths (e : jwe) : Prop :=
  (exists c, b64_decode (je_ciphertext e) = Some c) /\
  (exists iv, b64_decode (je_iv e) = Some iv /\ String.length iv <= 24) /\
  forall alg a l r, jwe_get e jh_alg = Some alg -> In (alg, a) wrap_table -> jwe_recipients e = Some l -> In r l -> entry_lengths a r.
(** A cipher that adds 16 bytes. *)
Definition dec_length (dec : string -> string -> string -> string -> option string) : Prop :=
  forall k n a c p, dec k n a c = Some p -> String.length c = String.length p + 16.

(** Two envelopes that differ at most in their recipient entries. *)
Definition same_but_entries (a b : jwe) : Prop :=
  je_protected a = je_protected b /\ je_unprotected a = je_unprotected b /\ je_ciphertext a = je_ciphertext b /\ je_iv a = je_iv b /\ je_tag a = je_tag b.
