(** The third content cipher, AES-256-CBC with PKCS #7 padding (crate libaes 0.6.1, Cargo.toml:26), called at
    src/crypto/encryptor.rs:52-68. Definitions only. Algorithms: FIPS 197, NIST SP 800-38A, RFC 5652 section 6.3. *)

From Coq Require Import Ascii String NArith List.
From Verif Require Import Bytes ChaCha Sha256 Aead Envelope.
Import ListNotations.
Local Open Scope string_scope.

(** [n] times the byte [n]: src/crypto/encryptor.rs:66, crate libaes (Cargo.toml:26). *)
Fixpoint fill (c : ascii) (n : nat) : string := match n with O => "" | S n' => String c (fill c n') end.
(** Padding to a multiple of 16 bytes, at least one byte: src/crypto/encryptor.rs:66, crate libaes (Cargo.toml:26). *)
Definition pad7 (s : string) : string :=
  let n := (16 - Nat.modulo (String.length s) 16)%nat in s ++ fill (chr (N.of_nat n)) n.
(** The blocks, each one masked by the result for the one before: src/crypto/encryptor.rs:66, crate libaes (Cargo.toml:26). *)
Fixpoint cbc_blocks (ws : list N) (prev : string) (l : list string) : string :=
  match l with
  | [] => ""
  | b :: r => let c := aes_block ws (xor_bytes b prev) in c ++ cbc_blocks ws c r
  end.
(** src/crypto/encryptor.rs:65-66 *)
Definition cbc256 (key iv text : string) : string :=
  let p := pad7 text in cbc_blocks (expand key) iv (pieces (String.length p) p).
(** [E] with this cipher: src/crypto/encryptor.rs:52-68. *)
Definition with_cbc (E : env) : env := {|
  x_pub := x_pub E; x_dh := x_dh E; xc_enc := xc_enc E; xc_dec := xc_dec E; gcm_enc := gcm_enc E; gcm_dec := gcm_dec E; cbc_enc := cbc256;
  sig_sign := sig_sign E; sig_verify := sig_verify E; resolve := resolve E; fl := fl E; ho := ho E |}.
