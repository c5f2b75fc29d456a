(** Specification vocabulary: what the theorems of the Prop*.v files are stated with.
    Nothing in this file is used by the model. *)

From Coq Require Import Ascii String Arith NArith List Bool Permutation Sorted.
From Verif Require Import Bytes Utf8 Json Value Types Message Envelope SpecJson.
Import ListNotations.
Local Open Scope string_scope.

(** ** Values that exist at run time *)

(** A Rust [String] is UTF-8. *)
Definition rust_string (s : string) : Prop := utf8_valid s = true.

(** Keys of a hash map are unique. *)
Definition unique_keys {V} (m : list (string * V)) : Prop := NoDup (map fst m).

(** A 64-bit unsigned number, possibly absent. *)
Definition is_u64 (n : N) : Prop := (n <= 18446744073709551615)%N.
Definition opt_all {A} (P : A -> Prop) (o : option A) : Prop := match o with Some a => P a | None => True end.

(** Bytewise order of strings. *)
Definition str_lt (a b : string) : Prop := String.compare a b = Lt.

(** A number token of JSON. *)
Definition json_number (t : string) : Prop := lex_num t = Some (t, "").

(** The trees that stand for a [serde_json::Value]: members sorted by name without repetition, number tokens are
    numbers. *)
Inductive rust_value : json -> Prop :=
| rv_null : rust_value JNull
| rv_bool : forall b, rust_value (JBool b)
| rv_num : forall t, json_number t -> rust_value (JNum t)
| rv_str : forall s, rust_value (JStr (needs_escape s) s)
| rv_arr : forall l, (forall x, In x l -> rust_value x) -> rust_value (JArr l)
| rv_obj : forall l, StronglySorted str_lt (map fst l) -> (forall kv, In kv l -> rust_value (snd kv)) -> rust_value (JObj l).

(** All strings inside a value / a message. *)
Fixpoint json_strings (j : json) : list string :=
  match j with
  | JStr _ s => [s]
  | JArr l => flat_map json_strings l
  | JObj l => flat_map (fun kv => fst kv :: json_strings (snd kv)) l
  | _ => []
  end.
Definition ostr (o : option string) : list string := match o with Some s => [s] | None => [] end.
Definition oflat {A} (f : A -> list string) (o : option A) : list string := match o with Some a => f a | None => [] end.
Definition map_strings (m : list (string * string)) : list string := flat_map (fun kv => [fst kv; snd kv]) m.
Definition epk_strings (e : epk) : list string := [ep_kty e; ep_crv e; ep_x e] ++ ostr (ep_y e).
Definition jwk_strings (k : jwk) : list string :=
  ostr (jk_kty k) ++ ostr (jk_use k) ++ ostr (jk_crv k) ++ ostr (jk_kid k) ++ oflat epk_strings (jk_epk k)
  ++ map_strings (jk_other k).
Definition jwm_strings (h : jwm_header) : list string :=
  ostr (jh_enc h) ++ ostr (jh_kid h) ++ ostr (jh_skid h) ++ ostr (jh_alg h) ++ ostr (jh_jku h)
  ++ oflat jwk_strings (jh_jwk h) ++ oflat jwk_strings (jh_epk h) ++ ostr (jh_cty h).
Definition prior_strings (p : prior_claims) : list string := ostr (pc_sub p) ++ [pc_iss p].
Definition thread_strings (t : thread) : list string :=
  [th_thid t; th_pthid t] ++ oflat (map fst) (th_received_orders t) ++ ostr (th_goal_code t).
Definition did_strings (d : didcomm_header) : list string :=
  [dh_id d; dh_type d] ++ ostr (dh_thid d) ++ ostr (dh_pthid d) ++ dh_to d ++ ostr (dh_from d)
  ++ oflat prior_strings (dh_from_prior d) ++ oflat thread_strings (dh_thread d) ++ map_strings (dh_other d).
Definition recipient_strings (r : recipient) : list string := jwk_strings (rc_header r) ++ [rc_encrypted_key r].
Definition attachment_strings (a : attachment) : list string :=
  ostr (at_id a) ++ ostr (at_description a) ++ ostr (at_filename a) ++ ostr (at_media_type a) ++ ostr (at_format a)
  ++ ostr (at_lastmod a) ++ ostr (ad_jws (at_data a)) ++ ostr (ad_hash (at_data a)) ++ ad_links (at_data a)
  ++ ostr (ad_base64 (at_data a)) ++ ostr (ad_json (at_data a)).
Definition message_strings (m : message) : list string :=
  jwm_strings (m_jwm m) ++ did_strings (m_did m) ++ oflat (flat_map recipient_strings) (m_recipients m)
  ++ json_strings (m_body m) ++ flat_map attachment_strings (m_attachments m).

(** The values the Rust types [JwmHeader] and [Message] can take. *)
Definition rust_jwk (k : jwk) : Prop := unique_keys (jk_other k).
Definition rust_header (h : jwm_header) : Prop :=
  Forall rust_string (jwm_strings h) /\ opt_all rust_jwk (jh_jwk h) /\ opt_all rust_jwk (jh_epk h).
Definition rust_thread (t : thread) : Prop :=
  opt_all is_u64 (th_sender_order t) /\
  opt_all (fun ro => unique_keys ro /\ Forall (fun kv => is_u64 (snd kv)) ro) (th_received_orders t).
Record rust_message (m : message) : Prop := {
  rm_strings : Forall rust_string (message_strings m);
  rm_jwk : opt_all rust_jwk (jh_jwk (m_jwm m));
  rm_epk : opt_all rust_jwk (jh_epk (m_jwm m));
  rm_other : unique_keys (dh_other (m_did m));
  rm_created : opt_all is_u64 (dh_created (m_did m));
  rm_expires : opt_all is_u64 (dh_expires (m_did m));
  rm_thread : opt_all rust_thread (dh_thread (m_did m));
  rm_recipients : opt_all (Forall (fun r => rust_jwk (rc_header r))) (m_recipients m);
  rm_body : rust_value (m_body m);
  rm_attachments : Forall (fun a => opt_all is_u64 (at_byte_count a)) (m_attachments m);
}.

(** ** Reserved member names *)

Definition jwk_names : list string := ["kty"; "use"; "crv"; "key_ops"; "alg"; "kid"; "epk"].
Definition header_names : list string :=
  ["recipients"; "body"; "attachments";
   "typ"; "enc"; "kid"; "skid"; "alg"; "jku"; "jwk"; "epk"; "cty";
   "id"; "thid"; "pthid"; "type"; "to"; "from"; "created_time"; "expires_time"; "from_prior"; "~thread"].
Definition envelope_names : list string := ["iv"; "signature"; "signatures"].

Definition avoids {V} (names : list string) (m : list (string * V)) : Prop := forall k, In k (map fst m) -> ~ In k names.
Definition jwk_plain (k : jwk) : Prop := avoids jwk_names (jk_other k).
Definition header_plain (h : jwm_header) : Prop := opt_all jwk_plain (jh_jwk h) /\ opt_all jwk_plain (jh_epk h).

(** ** Numbers that the environment prints back unchanged *)

(** The member name that serde_json keeps for itself (feature raw_value). Only the first member of an object is looked
    at. *)
Definition reserved_name : string := "$serde_json::private::RawValue".
Definition plain_start {V} (l : list (string * V)) : Prop := forall k v r, l = (k, v) :: r -> k <> reserved_name.

(** No member of any object has the reserved name. *)
Inductive ordinary : json -> Prop :=
| or_null : ordinary JNull
| or_bool : forall b, ordinary (JBool b)
| or_num : forall t, ordinary (JNum t)
| or_str : forall e s, ordinary (JStr e s)
| or_arr : forall l, (forall x, In x l -> ordinary x) -> ordinary (JArr l)
| or_obj : forall l, (forall kv, In kv l -> fst kv <> reserved_name /\ ordinary (snd kv)) -> ordinary (JObj l).

(** The value is reproduced when it is printed and parsed again: every number token is, and no object starts with the
    reserved name. Integers of 64 bits always are (theorem [integers_stable] of PropValue.v); floats are when the printed
    text is read back as the same float. *)
Inductive stable (R : drt) : json -> Prop :=
| st_null : stable R JNull
| st_bool : forall b, stable R (JBool b)
| st_num : forall t, vnum R t = Some t -> stable R (JNum t)
| st_str : forall e s, stable R (JStr e s)
| st_arr : forall l, (forall x, In x l -> stable R x) -> stable R (JArr l)
| st_obj : forall l, plain_start l -> (forall kv, In kv l -> stable R (snd kv)) -> stable R (JObj l).

(** ** What the body of a message is, given the JSON text it was set from *)

(** Integers of 64 bits as JSON writes them. *)
Definition int64_token (t : string) : Prop :=
  (exists n, (n <= 18446744073709551615)%N /\ t = dec_of_N n) \/
  (exists n, (0 < n <= 9223372036854775808)%N /\ t = "-" ++ dec_of_N n).

(** A number token and the number it is read as: integers stay as they are, anything else is rounded to a float. *)
Inductive num_reads (R : drt) (t : string) : string -> Prop :=
| nr_int : int64_token t -> num_reads R t t
| nr_float : forall t', ~ int64_token t -> fnorm R t = Some t' -> num_reads R t t'.

(** The last member called [k]. *)
Definition last_binding {V} (es : list (string * V)) (k : string) (v : V) : Prop :=
  exists before after, es = (before ++ (k, v) :: after)%list /\ ~ In k (map fst after).

(** At most [n] containers inside each other. *)
Inductive nested : nat -> json -> Prop :=
| ns_null : forall n, nested n JNull
| ns_bool : forall n b, nested n (JBool b)
| ns_num : forall n t, nested n (JNum t)
| ns_str : forall n e s, nested n (JStr e s)
| ns_arr : forall n l, (forall x, In x l -> nested n x) -> nested (S n) (JArr l)
| ns_obj : forall n l, (forall kv, In kv l -> nested n (snd kv)) -> nested (S n) (JObj l).

(** Document tree and the value it is read as: same shape; names of an object sorted, the last of several members with the
    same name counts. An object whose only member has the reserved name and a text as value is read as what that text is
    read as; otherwise the reserved name must not come first. *)
Inductive reads (R : drt) : json -> json -> Prop :=
| rd_null : reads R JNull JNull
| rd_bool : forall b, reads R (JBool b) (JBool b)
| rd_num : forall t t', num_reads R t t' -> reads R (JNum t) (JNum t')
| rd_str : forall e s, reads R (JStr e s) (JStr (needs_escape s) s)
| rd_arr : forall l l', Forall2 (reads R) l l' -> reads R (JArr l) (JArr l')
| rd_obj : forall es es', plain_start es ->
    StronglySorted str_lt (map fst es') ->
    (forall k v, In (k, v) es' -> exists j, last_binding es k j /\ reads R j v) ->
    (forall k, In k (map fst es) -> In k (map fst es')) ->
    (forall kv, In kv es -> exists v, reads R (snd kv) v) ->
    reads R (JObj es) (JObj es')
| rd_raw : forall e s j v, document s j -> nested 127 j -> reads R j v -> reads R (JObj [(reserved_name, JStr e s)]) v.

(** All numbers are 64-bit integers. *)
Inductive integers_only : json -> Prop :=
| io_null : integers_only JNull
| io_bool : forall b, integers_only (JBool b)
| io_num : forall t, int64_token t -> integers_only (JNum t)
| io_str : forall e s, integers_only (JStr e s)
| io_arr : forall l, (forall x, In x l -> integers_only x) -> integers_only (JArr l)
| io_obj : forall l, (forall kv, In kv l -> integers_only (snd kv)) -> integers_only (JObj l).

(** What is assumed of the environment everywhere: hash maps iterate over exactly their entries, and a float prints as a
    JSON number with fraction or exponent. *)
Record env_ok (E : env) : Prop := {
  eo_order : forall k V (l : list (string * V)), Permutation (ho E k V l) l;
  eo_float : forall t t', json_number t -> fl E t = Some t' -> json_number t' /\ tok_int t' = None;
}.

(** Messages that can be serialised and read back: side conditions of the round trips. *)
Record sendable (E : env) (m : message) : Prop := {
  sd_rust : rust_message m;
  sd_to : dh_to (m_did m) <> [];
  sd_names : avoids header_names (dh_other (m_did m));
  sd_header : header_plain (m_jwm m);
  sd_recipients : opt_all (Forall (fun r => jwk_plain (rc_header r))) (m_recipients m);
  sd_depth : depth (m_body m) <= 126;
  sd_numbers : stable (rt E 0) (m_body m);
}.

(** ** Equality of messages as Rust compares them (maps as maps), without the two serialisation flags *)

Definition orel {A} (R : A -> A -> Prop) (a b : option A) : Prop :=
  match a, b with Some x, Some y => R x y | None, None => True | _, _ => False end.
Definition same_map {V} (a b : list (string * V)) : Prop := Permutation a b.
Definition same_jwk (a b : jwk) : Prop :=
  jk_kty a = jk_kty b /\ jk_use a = jk_use b /\ jk_crv a = jk_crv b /\ jk_key_ops a = jk_key_ops b /\
  jk_alg a = jk_alg b /\ jk_kid a = jk_kid b /\ jk_epk a = jk_epk b /\ same_map (jk_other a) (jk_other b).
Definition same_header (a b : jwm_header) : Prop :=
  jh_typ a = jh_typ b /\ jh_enc a = jh_enc b /\ jh_kid a = jh_kid b /\ jh_skid a = jh_skid b /\
  jh_alg a = jh_alg b /\ jh_jku a = jh_jku b /\ orel same_jwk (jh_jwk a) (jh_jwk b) /\
  orel same_jwk (jh_epk a) (jh_epk b) /\ jh_cty a = jh_cty b.
Definition same_thread (a b : thread) : Prop :=
  th_thid a = th_thid b /\ th_pthid a = th_pthid b /\ th_sender_order a = th_sender_order b /\
  orel same_map (th_received_orders a) (th_received_orders b) /\ th_goal_code a = th_goal_code b.
Definition same_did (a b : didcomm_header) : Prop :=
  dh_id a = dh_id b /\ dh_thid a = dh_thid b /\ dh_pthid a = dh_pthid b /\ dh_type a = dh_type b /\
  dh_to a = dh_to b /\ dh_from a = dh_from b /\ dh_created a = dh_created b /\ dh_expires a = dh_expires b /\
  dh_from_prior a = dh_from_prior b /\ orel same_thread (dh_thread a) (dh_thread b) /\
  same_map (dh_other a) (dh_other b).
Definition same_recipient (a b : recipient) : Prop :=
  same_jwk (rc_header a) (rc_header b) /\ rc_encrypted_key a = rc_encrypted_key b.
Definition same_message (a b : message) : Prop :=
  same_header (m_jwm a) (m_jwm b) /\ same_did (m_did a) (m_did b) /\
  orel (Forall2 same_recipient) (m_recipients a) (m_recipients b) /\
  m_body a = m_body b /\ m_attachments a = m_attachments b.

(** A received message never carries the serialisation flags. *)
Definition flags_reset (m : message) : Prop := m_flat_jwe m = false /\ m_flat_jws m = false.

(** ** Registered names *)

(** Media types of DIDComm messages and the two message types used as [typ] by the crate. *)
Definition message_type_table : list (string * message_type) :=
  [("application/didcomm-encrypted+json", DidCommJwe); ("application/didcomm-signed+json", DidCommJws);
   ("application/didcomm-plain+json", DidCommRaw); ("https://didcomm.org/routing/2.0/forward", DidCommForward);
   ("https://didcomm.org/out-of-band/2.0/invitation", DidCommInvitation)].
(** RFC 7517 section 4.3. *)
Definition key_ops_table : list (string * key_ops) :=
  [("sign", KSign); ("verify", KVerify); ("encrypt", KEncrypt); ("decrypt", KDecrypt); ("wrapKey", KWrapKey);
   ("unwrapKey", KUnwrapKey); ("deriveKey", KDeriveKey); ("deriveBits", KDeriveBits); ("other", KOther)].
(** RFC 7518 sections 3.1 and 4.1, RFC 8037, draft-madden-jose-ecdh-1pu. *)
Definition key_algorithm_table : list (string * key_algorithm) :=
  [("HS256", HS256); ("HS384", HS384); ("HS512", HS512); ("RS256", RS256); ("RS384", RS384); ("RS512", RS512);
   ("ES256", ES256); ("ES384", ES384); ("ES512", ES512); ("PS384", PS384); ("PS512", PS512); ("RSA1_5", RSA1_5);
   ("RSA-OAEP", RsaOaep); ("RSA-OAEP-256", RsaOaep256); ("A128KW", A128KW); ("A256KW", A256KW); ("dir", Dir);
   ("ECDH-ES", EcdhEs); ("ECDH-ES+A128KW", EcdhEsPlusA128kw); ("ECDH-ES+A192KW", EcdhEsPulsA192kw);
   ("ECDH-ES+A256KW", EcdhEsA256kw); ("A128GCMKW", A128GCMKW); ("A192GCMKW", A192GCMKW); ("A256GCMKW", A256GCMKW);
   ("ECDH-1PU+A256KW", Ecdh1puA256kw); ("ECDH-1PU+XC20PKW", Ecdh1puXc20pkw); ("PBES2-HS256+A128KW", Pbes2Hs256A128kw);
   ("PBES2-HS384+A192KW", Pbes2Hs384A192kw); ("PBES2-HS512+A256KW", Pbes2Hs512A256kw); ("EdDSA", EdDsaKey);
   ("none", NoneAlg)].

(** ** base64url as RFC 4648 section 5 describes it (without padding) *)

Definition bits8 (c : ascii) : list bool :=
  match c with Ascii b0 b1 b2 b3 b4 b5 b6 b7 => [b7; b6; b5; b4; b3; b2; b1; b0] end.
Fixpoint bit_string (s : string) : list bool := match s with "" => [] | String c r => (bits8 c ++ bit_string r)%list end.
Definition bits_value (l : list bool) : nat := fold_left (fun n (b : bool) => 2 * n + if b then 1 else 0) l 0.
Definition b64_alphabet : string := "ABCDEFGHIJKLMNOPQRSTUVWXYZabcdefghijklmnopqrstuvwxyz0123456789-_".
(** Groups of six bits, the last one filled up with zero bits on the right. *)
Inductive sextets : list bool -> list nat -> Prop :=
| sx_nil : sextets [] []
| sx_full : forall a b c d e f l n, sextets l n -> sextets (a :: b :: c :: d :: e :: f :: l) (bits_value [a; b; c; d; e; f] :: n)
| sx_last : forall l, 0 < List.length l < 6 -> sextets l [bits_value (l ++ repeat false (6 - List.length l))].
Definition rfc4648 (bytes text : string) : Prop :=
  exists n, sextets (bit_string bytes) n /\ Forall2 (fun i c => String.get i b64_alphabet = Some c) n (list_ascii_of_string text).

(** No raw control character. *)
Fixpoint no_control (s : string) : Prop := match s with "" => True | String c r => (32 <= code c)%N /\ no_control r end.

(** ** Members of a JSON object *)

Definition has_member (es : list (string * json)) (k : string) : Prop := exists j, In (k, j) es /\ j <> JNull.
Definition at_most_once (es : list (string * json)) (k : string) : Prop :=
  forall a x b y c, es <> (a ++ (k, x) :: b ++ (k, y) :: c)%list.
