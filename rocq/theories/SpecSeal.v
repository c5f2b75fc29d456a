(** Specification vocabulary for encrypted envelopes (JWE, RFC 7516; ECDH-1PU).  Nothing in this file is used by the model. *)

From Coq Require Import Ascii String Arith NArith List Bool Permutation.
From Verif Require Import Bytes Base64 Utf8 Json Value Types Serde Message Envelope Spec SpecText SpecSign.
Import ListNotations.
Local Open Scope string_scope.

(** The key wrapping algorithms and the cipher each of them implies. *)
Definition wrap_table : list (string * crypto_algorithm) := [("ECDH-1PU+A256KW", A256GCM); ("ECDH-1PU+XC20PKW", XC20P)].

(** The X25519 key used for [did]: the one that was passed, otherwise the one of the DID document. *)
Definition known_key (E : env) (did : string) (given : option string) (key : string) : Prop :=
  given = Some key \/ (given = None /\ exists doc, resolve E did = Some doc /\ doc_key doc "X25519" = Some key).
(** The key passed for the [i]-th recipient. *)
Definition given_key (keys : option (list (option string))) (i : nat) : option string :=
  match keys with Some l => nth i l None | None => None end.

(** The random values have the lengths that the code asks for. *)
Record rand_ok (r : seal_rand) : Prop := {
  ra_secret : forall i, String.length (rr_esk (sr_rec r i)) = 32;
  ra_nonce : forall i n, String.length (rr_iv (sr_rec r i) n) = n;
  ra_iv : String.length (sr_iv r) = 24;
}.

(** Same message except for the recipient entries, which [seal] adds. *)
Definition same_content (a b : message) : Prop :=
  same_header (m_jwm a) (m_jwm b) /\ same_did (m_did a) (m_did b) /\ m_body a = m_body b /\ m_attachments a = m_attachments b.

(** The DID a recipient entry is labelled with. *)
Definition labelled (dest label : string) : Prop := did_url dest label \/ (label = "" /\ forall d, ~ did_url dest d).

(** An entry of an encrypted envelope for [dest], wrapped with algorithm [alg]. *)
Definition entry_for (dest alg : string) (fields : list (string * json)) : Prop :=
  exists h label k, In ("header", JObj h) fields /\ In ("kid", jstr label) h /\ labelled dest label /\
    In ("alg", jstr alg) h /\ In ("encrypted_key", jstr k) fields.

(** The ciphers as functions of key, nonce, associated data and text. *)
Definition content_dec (E : env) (a : crypto_algorithm) (key iv aad ct : string) : option string :=
  match a with
  | XC20P => if (String.length iv =? 24)%nat then xc_dec E key iv aad ct else None
  | A256GCM => if (12 <=? String.length iv)%nat then gcm_dec E key (take 12 iv) aad ct else None
  | A256CBC => None
  end.

(** The ciphers refuse nothing that has the right lengths (over-long texts aside). *)
Record crypto_total (E : env) : Prop := {
  tt_xc : forall k n a p, String.length k = 32 -> String.length n = 24 -> exists c, xc_enc E k n a p = Some c;
  tt_gcm : forall k n a p, String.length k = 32 -> String.length n = 12 -> exists c, gcm_enc E k n a p = Some c;
}.

(** Arguments that [seal] refuses, in the order in which they are checked. *)
Inductive bad_argument (m : message) (sk : string) (keys : option (list (option string))) : error -> Prop :=
| ba_key : String.length sk <> 32 -> bad_argument m sk keys (EInvalidKeySize "!32")
| ba_count : forall l, String.length sk = 32 -> keys = Some l -> List.length l <> List.length (dh_to (m_did m)) ->
    bad_argument m sk keys (EGeneric "`to` and `recipient_public_keys` must have same length")
| ba_nobody : String.length sk = 32 -> keys = None \/ keys = Some [] -> dh_to (m_did m) = [] -> bad_argument m sk keys ENoJweRecipient
| ba_flat : String.length sk = 32 -> (forall l, keys = Some l -> List.length l = List.length (dh_to (m_did m))) ->
    m_flat_jwe m = true -> 2 <= List.length (dh_to (m_did m)) ->
    bad_argument m sk keys (EGeneric "flat JWE serialization only supports a single `to`").
Definition argument_errors : list error :=
  [EInvalidKeySize "!32"; EGeneric "`to` and `recipient_public_keys` must have same length"; ENoJweRecipient;
   EGeneric "flat JWE serialization only supports a single `to`"].

(** [text] is an encrypted envelope that opens to [m] under the content key [key]: exactly the transmitted iv, ciphertext and
    tag are given to the cipher, with the protected header, as the crate writes it, as associated data. *)
Definition opens (E : env) (a : crypto_algorithm) (R1 R2 : drt) (text key : string) (iv aad ct : string) (m : message) : Prop :=
  exists es hj h t1 t2 t3 body tag p,
    parse text = Some (JObj es) /\ protected_tree (JObj es) hj /\ de_jwm R1 false hj = Some h /\ aad = header_text h /\
    text_field [] (JObj es) "ciphertext" t1 /\ b64_text body t1 /\
    text_field [] (JObj es) "tag" t2 /\ b64_text tag t2 /\ ct = body ++ tag /\
    text_field [] (JObj es) "iv" t3 /\ b64_text iv t3 /\
    String.length key = 32 /\ content_dec E a key iv aad ct = Some p /\ message_from_slice R2 p = Some m.

(** Nothing decrypts under [key] except what was encrypted: one text [p], with this nonce and associated data. *)
Definition sole_text (enc dec : string -> string -> string -> string -> option string) (key nonce aad p : string) : Prop :=
  forall n a c p', dec key n a c = Some p' -> n = nonce /\ a = aad /\ p' = p /\ enc key nonce aad p = Some c.
(** Everything that decrypts under [key] was encrypted with it: [log] lists nonce, associated data, text and ciphertext of all uses. *)
Definition only_log (dec : string -> string -> string -> string -> option string) (key : string) (log : list (string * string * string * string)) : Prop :=
  forall n a c p, dec key n a c = Some p -> In (n, a, p, c) log.
(** A ciphertext is not accepted with other associated data than it was made with (idealisation of authenticity). *)
Definition data_bound (enc dec : string -> string -> string -> string -> option string) : Prop :=
  forall k n a p c a', enc k n a p = Some c -> a' <> a -> dec k n a' c = None.
