(** The data types of the crate. Field names are prefixed per struct because Coq record fields are global. *)

From Coq Require Import Ascii String Arith NArith List Bool.
From Verif Require Import Bytes Json.
Import ListNotations.
Local Open Scope string_scope.

(** src/messages/headers/types.rs:3-14 *)
Inductive message_type := DidCommJwe | DidCommJws | DidCommRaw | DidCommForward | DidCommInvitation.

(** src/messages/headers/jwk.rs:62-74 *)
Inductive key_ops := KSign | KVerify | KEncrypt | KDecrypt | KWrapKey | KUnwrapKey | KDeriveKey | KDeriveBits | KOther.

(** src/messages/headers/jwk.rs:78-125 *)
Inductive key_algorithm :=
| HS256 | HS384 | HS512 | RS256 | RS384 | RS512 | ES256 | ES384 | ES512 | PS384 | PS512 | RSA1_5
| RsaOaep | RsaOaep256 | A128KW | A256KW | Dir | EcdhEs | EcdhEsPlusA128kw | EcdhEsPulsA192kw | EcdhEsA256kw
| A128GCMKW | A192GCMKW | A256GCMKW | Ecdh1puA256kw | Ecdh1puXc20pkw
| Pbes2Hs256A128kw | Pbes2Hs384A192kw | Pbes2Hs512A256kw | EdDsaKey | NoneAlg.

(** src/messages/headers/jwk.rs:5-14 *)
Record epk := { ep_kty : string; ep_crv : string; ep_x : string; ep_y : option string }.

(** src/messages/headers/jwk.rs:18-40. [jk_other] is a HashMap in iteration order. *)
Record jwk := {
  jk_kty : option string; jk_use : option string; jk_crv : option string;
  jk_key_ops : list key_ops; jk_alg : key_algorithm;
  jk_kid : option string; jk_epk : option epk;
  jk_other : list (string * string);
}.

(** src/messages/headers/jwm.rs:13-52 *)
Record jwm_header := {
  jh_typ : message_type; jh_enc : option string; jh_kid : option string; jh_skid : option string;
  jh_alg : option string; jh_jku : option string; jh_jwk : option jwk; jh_epk : option jwk;
  jh_cty : option string;
}.

(** src/messages/headers/prior_claims.rs:7-11 *)
Record prior_claims := { pc_sub : option string; pc_iss : string }.

(** src/messages/headers/decorators.rs:19-41. [th_received_orders] is a HashMap in iteration order. *)
Record thread := {
  th_thid : string; th_pthid : string; th_sender_order : option N;
  th_received_orders : option (list (string * N)); th_goal_code : option string;
}.

(** src/messages/headers/didcomm.rs:8-40. [dh_other] is a HashMap in iteration order. *)
Record didcomm_header := {
  dh_id : string; dh_thid : option string; dh_pthid : option string; dh_type : string;
  dh_to : list string; dh_from : option string;
  dh_created : option N; dh_expires : option N;
  dh_from_prior : option prior_claims; dh_thread : option thread;
  dh_other : list (string * string);
}.

(** src/messages/jwe.rs:14-18 *)
Record recipient := { rc_header : jwk; rc_encrypted_key : string }.

(** src/messages/attachment.rs:30-42 *)
Record attachment_data := {
  ad_jws : option string; ad_hash : option string; ad_links : list string;
  ad_base64 : option string; ad_json : option string;
}.

(** src/messages/attachment.rs:10-26 *)
Record attachment := {
  at_id : option string; at_description : option string; at_filename : option string;
  at_media_type : option string; at_format : option string; at_lastmod : option string;
  at_byte_count : option N; at_data : attachment_data;
}.

(** src/messages/message.rs:40-70. [m_body] is a [serde_json::Value] (Value.v). *)
Record message := {
  m_jwm : jwm_header; m_did : didcomm_header;
  m_recipients : option (list recipient);
  m_body : json;
  m_flat_jwe : bool; m_flat_jws : bool;
  m_attachments : list attachment;
}.

(** src/messages/jwe.rs:32-63 *)
Record jwe := {
  je_protected : option jwm_header; je_unprotected : option jwm_header;
  je_recipient : option recipient; je_recipients : option (list recipient);
  je_ciphertext : string; je_iv : string; je_tag : option string;
}.

(** src/messages/jws.rs:14-29 *)
Record signature := { sg_protected : option jwm_header; sg_header : option jwm_header; sg_signature : string }.

(** src/messages/jws.rs:74-88 *)
Record jws := { js_payload : string; js_signature : option signature; js_signatures : option (list signature) }.

(** src/messages/mediated.rs:5-12 *)
Record mediated := { md_next : string; md_payload : string }.

(** src/messages/problem_report.rs:7-12 *)
Record problem := { pr_code : string; pr_comment : option string; pr_args : list string; pr_escalate_to : option string }.

(** src/crypto/encryptor.rs:15-19 *)
Inductive crypto_algorithm := XC20P | A256GCM | A256CBC.

(** src/crypto/signer.rs:8-15 *)
Inductive signature_algorithm := EdDsa | Es256 | Es256k.
