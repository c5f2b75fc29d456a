(** Constructors and conversions that the envelopes themselves do not use. *)

From Coq Require Import Ascii String NArith List Bool.
From Verif Require Import Bytes Utf8 Json Types Serde.
Import ListNotations.
Local Open Scope string_scope.

(** ** Rotation claims (src/messages/headers/prior_claims.rs) *)

(** src/messages/headers/prior_claims.rs:16-18 *)
Definition prior_from_str (jwt : string) : res prior_claims :=
  let? j := oerr (parse jwt) ESerde in oerr (de_prior j) ESerde.
(** src/messages/headers/prior_claims.rs:24-26 *)
Definition prior_try_from (jwt : string) : res prior_claims :=
  if utf8_valid jwt then prior_from_str jwt else Err EUtf8Parse.

(** ** Keys (src/messages/headers/jwk.rs) *)

(** src/messages/headers/jwk.rs:44-46, 134-138 *)
Definition jwk_new : jwk :=
  {| jk_kty := None; jk_use := None; jk_crv := None; jk_key_ops := []; jk_alg := NoneAlg; jk_kid := None; jk_epk := None; jk_other := [] |}.
(** src/messages/headers/jwk.rs:50-53 *)
Definition jwk_ephemeral (k : jwk) (kty crv x : string) (y : option string) : jwk :=
  {| jk_kty := jk_kty k; jk_use := jk_use k; jk_crv := jk_crv k; jk_key_ops := jk_key_ops k; jk_alg := jk_alg k; jk_kid := jk_kid k;
     jk_epk := Some {| ep_kty := kty; ep_crv := crv; ep_x := x; ep_y := y |}; jk_other := jk_other k |}.
(** src/messages/headers/jwk.rs:56-58 *)
Definition jwk_add_other (k : jwk) (name value : string) : jwk :=
  {| jk_kty := jk_kty k; jk_use := jk_use k; jk_crv := jk_crv k; jk_key_ops := jk_key_ops k; jk_alg := jk_alg k; jk_kid := jk_kid k;
     jk_epk := jk_epk k; jk_other := map_insert name value (jk_other k) |}.
(** src/messages/headers/jwk.rs:127-132: [serde_json::to_string] of the variant name. *)
Definition key_algorithm_string (a : key_algorithm) : string := print (jstr (key_algorithm_name a)).

(** ** Signed envelopes (src/messages/jws.rs) *)

(** src/messages/jws.rs:42-52 *)
Definition signature_new (protected header : option jwm_header) (bytes : string) : signature :=
  {| sg_protected := protected; sg_header := header; sg_signature := bytes |}.
(** src/messages/jws.rs:99-105 *)
Definition jws_new (payload : string) (signatures : list signature) : jws :=
  {| js_payload := payload; js_signature := None; js_signatures := Some signatures |}.
(** src/messages/jws.rs:115-121 *)
Definition jws_new_flat (payload : string) (signature_value : signature) : jws :=
  {| js_payload := payload; js_signature := Some signature_value; js_signatures := None |}.

(** src/messages/jwe.rs:21-26 *)
Definition recipient_new (header : jwk) (encrypted_key : string) : recipient :=
  {| rc_header := header; rc_encrypted_key := encrypted_key |}.
