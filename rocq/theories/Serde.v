(** Derived [Serialize]/[Deserialize] of the crate's types (serde 1.0 derive, Cargo.toml:20).

    Rules modelled (serde documentation and generated code):
    - a struct without flattened field is read from an object (by member name) or from an array (by position);
      an object member that is not a field is ignored; a field that occurs twice is an error; a missing [Option] field
      is [None]; a missing field without default is an error; in the array form only fields with a default may be missing;
    - a struct with a flattened field is read from objects only; members that are not its own fields are buffered and
      offered to the flattened fields in order: a plain struct takes its members out, a struct with its own flattened field
      or a map sees all that is left; a flattened [Option] swallows errors;
    - [null] is [None] for an [Option] and an error for other types used here;
    - unit enum variants are read from their name, or from an object with the name as single member and value null; if
      the enum is among buffered members, also from one with value {}. *)

From Coq Require Import Ascii String Arith NArith List Bool.
From Verif Require Import Bytes Base64 Json Value Types.
Import ListNotations.
Local Open Scope string_scope.

(** ** Serialisation *)

(** A [String] written by serde_json (for example src/messages/headers/jwk.rs:6). *)
Definition jstr (s : string) : json := JStr (needs_escape s) s.
(** A u64/usize written by serde_json (src/messages/headers/didcomm.rs:25-29). *)
Definition jnat (n : N) : json := JNum (dec_of_N n).

(** A field with [skip_serializing_if = Option::is_none]. For example src/messages/headers/jwk.rs:12,
    src/messages/headers/jwm.rs:17. *)
Definition sopt {A} (k : string) (f : A -> json) (o : option A) : list (string * json) :=
  match o with Some a => [(k, f a)] | None => [] end.

(** A field with [skip_serializing_if = Vec::is_empty]. For example src/messages/headers/didcomm.rs:21,
    src/messages/attachment.rs:36. *)
Definition svec {A} (k : string) (f : A -> json) (l : list A) : list (string * json) :=
  match l with [] => [] | _ => [(k, JArr (map f l))] end.

(** A flattened [HashMap<String, String>]. src/messages/headers/jwk.rs:38-39, src/messages/headers/didcomm.rs:38-39.
    *)
Definition smap (m : list (string * string)) : list (string * json) :=
  map (fun kv => (fst kv, jstr (snd kv))) m.

(** src/messages/headers/types.rs:4-13 *)
Definition message_type_name (t : message_type) : string :=
  match t with
  | DidCommJwe => "application/didcomm-encrypted+json"
  | DidCommJws => "application/didcomm-signed+json"
  | DidCommRaw => "application/didcomm-plain+json"
  | DidCommForward => "https://didcomm.org/routing/2.0/forward"
  | DidCommInvitation => "https://didcomm.org/out-of-band/2.0/invitation"
  end.
(** src/messages/headers/types.rs:3-14: the variants. *)
Definition all_message_types : list message_type :=
  [DidCommJwe; DidCommJws; DidCommRaw; DidCommForward; DidCommInvitation].

(** src/messages/headers/jwk.rs:63-74, rename_all camelCase *)
Definition key_ops_name (k : key_ops) : string :=
  match k with
  | KSign => "sign" | KVerify => "verify" | KEncrypt => "encrypt" | KDecrypt => "decrypt"
  | KWrapKey => "wrapKey" | KUnwrapKey => "unwrapKey" | KDeriveKey => "deriveKey"
  | KDeriveBits => "deriveBits" | KOther => "other"
  end.
(** src/messages/headers/jwk.rs:64-74: the variants. *)
Definition all_key_ops : list key_ops :=
  [KSign; KVerify; KEncrypt; KDecrypt; KWrapKey; KUnwrapKey; KDeriveKey; KDeriveBits; KOther].

(** src/messages/headers/jwk.rs:79-125 *)
Definition key_algorithm_name (a : key_algorithm) : string :=
  match a with
  | HS256 => "HS256" | HS384 => "HS384" | HS512 => "HS512"
  | RS256 => "RS256" | RS384 => "RS384" | RS512 => "RS512"
  | ES256 => "ES256" | ES384 => "ES384" | ES512 => "ES512"
  | PS384 => "PS384" | PS512 => "PS512" | RSA1_5 => "RSA1_5"
  | RsaOaep => "RSA-OAEP" | RsaOaep256 => "RSA-OAEP-256"
  | A128KW => "A128KW" | A256KW => "A256KW" | Dir => "dir" | EcdhEs => "ECDH-ES"
  | EcdhEsPlusA128kw => "ECDH-ES+A128KW" | EcdhEsPulsA192kw => "ECDH-ES+A192KW" | EcdhEsA256kw => "ECDH-ES+A256KW"
  | A128GCMKW => "A128GCMKW" | A192GCMKW => "A192GCMKW" | A256GCMKW => "A256GCMKW"
  | Ecdh1puA256kw => "ECDH-1PU+A256KW" | Ecdh1puXc20pkw => "ECDH-1PU+XC20PKW"
  | Pbes2Hs256A128kw => "PBES2-HS256+A128KW" | Pbes2Hs384A192kw => "PBES2-HS384+A192KW"
  | Pbes2Hs512A256kw => "PBES2-HS512+A256KW"
  | EdDsaKey => "EdDSA" | NoneAlg => "none"
  end.
(** src/messages/headers/jwk.rs:79-125: the variants. *)
Definition all_key_algorithms : list key_algorithm :=
  [HS256; HS384; HS512; RS256; RS384; RS512; ES256; ES384; ES512; PS384; PS512; RSA1_5; RsaOaep; RsaOaep256;
   A128KW; A256KW; Dir; EcdhEs; EcdhEsPlusA128kw; EcdhEsPulsA192kw; EcdhEsA256kw; A128GCMKW; A192GCMKW; A256GCMKW;
   Ecdh1puA256kw; Ecdh1puXc20pkw; Pbes2Hs256A128kw; Pbes2Hs384A192kw; Pbes2Hs512A256kw; EdDsaKey; NoneAlg].

(** src/messages/headers/jwk.rs:4-14 *)
Definition ser_epk (e : epk) : json :=
  JObj ([("kty", jstr (ep_kty e)); ("crv", jstr (ep_crv e)); ("x", jstr (ep_x e))] ++ sopt "y" jstr (ep_y e))%list.

(** src/messages/headers/jwk.rs:17-40 *)
Definition ser_jwk (k : jwk) : json :=
  JObj (sopt "kty" jstr (jk_kty k) ++ sopt "use" jstr (jk_use k) ++ sopt "crv" jstr (jk_crv k)
        ++ [("key_ops", JArr (map (fun o => jstr (key_ops_name o)) (jk_key_ops k)));
            ("alg", jstr (key_algorithm_name (jk_alg k)))]
        ++ sopt "kid" jstr (jk_kid k) ++ sopt "epk" ser_epk (jk_epk k) ++ smap (jk_other k))%list.

(** src/messages/headers/jwm.rs:12-52 *)
Definition jwm_entries (h : jwm_header) : list (string * json) :=
  ([("typ", jstr (message_type_name (jh_typ h)))] ++ sopt "enc" jstr (jh_enc h) ++ sopt "kid" jstr (jh_kid h)
   ++ sopt "skid" jstr (jh_skid h) ++ sopt "alg" jstr (jh_alg h) ++ sopt "jku" jstr (jh_jku h)
   ++ sopt "jwk" ser_jwk (jh_jwk h) ++ sopt "epk" ser_jwk (jh_epk h) ++ sopt "cty" jstr (jh_cty h))%list.
(** src/messages/headers/jwm.rs:12-52 *)
Definition ser_jwm (h : jwm_header) : json := JObj (jwm_entries h).

(** An [Option] field without skip attribute is written as null when absent. src/messages/headers/prior_claims.rs:8,
    src/messages/headers/didcomm.rs:23. *)
Definition snull {A} (f : A -> json) (o : option A) : json :=
  match o with Some a => f a | None => JNull end.

(** src/messages/headers/prior_claims.rs:6-11 *)
Definition ser_prior (p : prior_claims) : json :=
  JObj [("sub", snull jstr (pc_sub p)); ("iss", jstr (pc_iss p))].

(** src/messages/headers/decorators.rs:18-41 *)
Definition ser_thread (t : thread) : json :=
  JObj ([("thid", jstr (th_thid t)); ("pthid", jstr (th_pthid t))]
        ++ sopt "sender_order" jnat (th_sender_order t)
        ++ sopt "received_orders" (fun m => JObj (map (fun kv => (fst kv, jnat (snd kv))) m)) (th_received_orders t)
        ++ sopt "goal_code" jstr (th_goal_code t))%list.

(** src/messages/headers/didcomm.rs:7-40 *)
Definition didcomm_entries (d : didcomm_header) : list (string * json) :=
  ([("id", jstr (dh_id d))] ++ sopt "thid" jstr (dh_thid d) ++ sopt "pthid" jstr (dh_pthid d)
   ++ [("type", jstr (dh_type d))] ++ svec "to" jstr (dh_to d) ++ [("from", snull jstr (dh_from d))]
   ++ sopt "created_time" jnat (dh_created d) ++ sopt "expires_time" jnat (dh_expires d)
   ++ sopt "from_prior" ser_prior (dh_from_prior d) ++ sopt "~thread" ser_thread (dh_thread d)
   ++ smap (dh_other d))%list.

(** src/messages/jwe.rs:13-18 *)
Definition recipient_entries (r : recipient) : list (string * json) :=
  [("header", ser_jwk (rc_header r)); ("encrypted_key", jstr (rc_encrypted_key r))].
(** src/messages/jwe.rs:13-18 *)
Definition ser_recipient (r : recipient) : json := JObj (recipient_entries r).

(** src/messages/attachment.rs:29-42 *)
Definition ser_attachment_data (a : attachment_data) : json :=
  JObj (sopt "jws" jstr (ad_jws a) ++ sopt "hash" jstr (ad_hash a) ++ svec "links" jstr (ad_links a)
        ++ sopt "base64" jstr (ad_base64 a) ++ sopt "json" jstr (ad_json a))%list.

(** src/messages/attachment.rs:9-26 *)
Definition ser_attachment (a : attachment) : json :=
  JObj (sopt "id" jstr (at_id a) ++ sopt "description" jstr (at_description a) ++ sopt "filename" jstr (at_filename a)
        ++ sopt "media_type" jstr (at_media_type a) ++ sopt "format" jstr (at_format a)
        ++ sopt "lastmod_time" jstr (at_lastmod a) ++ sopt "byte_count" jnat (at_byte_count a)
        ++ [("data", ser_attachment_data (at_data a))])%list.

(** src/messages/message.rs:39-70 (the two flat flags are skipped) *)
Definition ser_message (m : message) : json :=
  JObj (jwm_entries (m_jwm m) ++ didcomm_entries (m_did m)
        ++ sopt "recipients" (fun l => JArr (map ser_recipient l)) (m_recipients m)
        ++ [("body", m_body m)]
        ++ svec "attachments" ser_attachment (m_attachments m))%list.

(** src/messages/helpers/serialization.rs:24-33: base64url of the JSON text of a header. *)
Definition header_b64 (h : jwm_header) : string := b64_encode (print (ser_jwm h)).

(** src/messages/jwe.rs:31-63 *)
Definition ser_jwe (e : jwe) : json :=
  JObj (sopt "protected" (fun h => jstr (header_b64 h)) (je_protected e)
        ++ sopt "unprotected" ser_jwm (je_unprotected e)
        ++ match je_recipient e with Some r => recipient_entries r | None => [] end
        ++ sopt "recipients" (fun l => JArr (map ser_recipient l)) (je_recipients e)
        ++ [("ciphertext", jstr (je_ciphertext e)); ("iv", jstr (je_iv e))]
        ++ sopt "tag" jstr (je_tag e))%list.

(** src/messages/jws.rs:13-29, serialization.rs:6-9 *)
Definition signature_entries (s : signature) : list (string * json) :=
  (sopt "protected" (fun h => jstr (header_b64 h)) (sg_protected s) ++ sopt "header" ser_jwm (sg_header s)
   ++ [("signature", jstr (b64_encode (sg_signature s)))])%list.
(** src/messages/jws.rs:13-29 *)
Definition ser_signature (s : signature) : json := JObj (signature_entries s).

(** src/messages/jws.rs:73-88 *)
Definition ser_jws (s : jws) : json :=
  JObj ([("payload", jstr (js_payload s))]
        ++ match js_signature s with Some g => signature_entries g | None => [] end
        ++ sopt "signatures" (fun l => JArr (map ser_signature l)) (js_signatures s))%list.

(** A [Vec<u8>] is an array of numbers (src/messages/mediated.rs:10-11). *)
Fixpoint bytes_json (s : string) : list json :=
  match s with "" => [] | String c r => jnat (code c) :: bytes_json r end.
(** src/messages/mediated.rs:4-12 *)
Definition ser_mediated (m : mediated) : json :=
  JObj [("next", jstr (md_next m)); ("payloads~attach", JArr (bytes_json (md_payload m)))].

(** ** Deserialisation *)

(** A field as seen by the generated visitor: member missing, array too short, or a value. The visitor generated by
    serde derive (Cargo.toml:20) for structs such as src/messages/headers/jwm.rs:12-52. *)
Inductive fld := Absent | Short | Got (j : json).

(** All values of a member: The visitor generated by serde derive (Cargo.toml:20) for structs such as
    src/messages/headers/jwm.rs:12-52. *)
Definition occ (k : string) (es : list (string * json)) : list json :=
  map snd (filter (fun e => String.eqb k (fst e)) es).

(** Member [k] of an object; a second occurrence is an error (duplicate field). The visitor generated by serde derive
    (Cargo.toml:20) for structs such as src/messages/headers/jwm.rs:12-52. *)
Definition member (es : list (string * json)) (k : string) : option fld :=
  match occ k es with
  | [] => Some Absent
  | [j] => Some (Got j)
  | _ => None
  end.

(** Position of a field in the array form: The visitor generated by serde derive (Cargo.toml:20) for structs such as
    src/messages/headers/jwm.rs:12-52. *)
Fixpoint index_of (k : string) (l : list string) : nat :=
  match l with [] => 0 | x :: r => if String.eqb k x then 0 else S (index_of k r) end.

(** Fields of a struct without flattened fields. The visitor generated by serde derive (Cargo.toml:20) for structs
    such as src/messages/headers/jwm.rs:12-52. *)
Definition view (names : list string) (j : json) : option (string -> option fld) :=
  match j with
  | JObj es => Some (member es)
  | JArr l =>
      if (List.length l <=? List.length names)%nat
      then Some (fun k => match nth_error l (index_of k names) with Some x => Some (Got x) | None => Some Short end)
      else None
  | _ => None
  end.

(** Field kinds: required, [Option], with default. For example src/messages/headers/jwk.rs:6. *)
Definition dreq {A} (f : json -> option A) (x : option fld) : option A :=
  match x with Some (Got j) => f j | _ => None end.
(** An [Option] field, for example src/messages/headers/jwk.rs:13, src/messages/headers/didcomm.rs:23. *)
Definition dopt {A} (f : json -> option A) (x : option fld) : option (option A) :=
  match x with
  | Some Absent => Some None
  | Some (Got JNull) => Some None
  | Some (Got j) => match f j with Some a => Some (Some a) | None => None end
  | _ => None
  end.
(** A field with [serde(default)]: src/messages/attachment.rs:35, src/messages/message.rs:68, src/messages/jws.rs:26.
    *)
Definition ddef {A} (d : A) (f : json -> option A) (x : option fld) : option A :=
  match x with
  | Some Absent => Some d
  | Some Short => Some d
  | Some (Got j) => f j
  | None => None
  end.

(** Leaf types. Type [String], for example src/messages/headers/jwk.rs:6. *)
Definition de_string (j : json) : option string := match j with JStr _ s => Some s | _ => None end.
(** Type [Vec<T>], for example src/messages/headers/didcomm.rs:21, src/messages/headers/jwk.rs:28. *)
Definition de_vec {A} (f : json -> option A) (j : json) : option (list A) :=
  match j with JArr l => all_some (map f l) | _ => None end.
(** u64 / usize (64 bit): only non-negative integer tokens in range. src/messages/headers/didcomm.rs:25-29,
    src/messages/headers/decorators.rs:32, src/messages/attachment.rs:24. *)
Definition de_uint (bound : N) (j : json) : option N :=
  match j with
  | JNum t =>
      match tok_int t with
      | Some (false, d) => if (dec_val 0 d <=? bound)%N then Some (dec_val 0 d) else None
      | _ => None
      end
  | _ => None
  end.
(** Type u64/usize: src/messages/headers/didcomm.rs:25-29, src/messages/headers/decorators.rs:32,
    src/messages/attachment.rs:24. *)
Definition de_u64 : json -> option N := de_uint u64_max.
(** Type u8: src/messages/mediated.rs:11. *)
Definition de_u8 : json -> option N := de_uint 255.

(** Unit enum. src/messages/headers/types.rs:3-14. *)
Definition find_name {A} (name : A -> string) (l : list A) (s : string) : option A :=
  find (fun a => String.eqb (name a) s) l.
(** An enum of unit variants: src/messages/headers/types.rs:3-14, src/messages/headers/jwk.rs:64-125. [bf]: the value comes
    from the buffer of a flattened field (src/messages/message.rs:42-47, src/messages/jwe.rs:45, src/messages/jws.rs:80),
    where serde's [ContentDeserializer] takes an empty object for a unit. *)
Definition de_enum {A} (bf : bool) (name : A -> string) (l : list A) (j : json) : option A :=
  match j with
  | JStr _ s => find_name name l s
  | JObj [(s, JNull)] => find_name name l s
  | JObj [(s, JObj [])] => if bf then find_name name l s else None
  | _ => None
  end.
(** src/messages/headers/types.rs:3-14 *)
Definition de_message_type (bf : bool) : json -> option message_type := de_enum bf message_type_name all_message_types.
(** src/messages/headers/jwk.rs:62-74 *)
Definition de_key_ops (bf : bool) : json -> option key_ops := de_enum bf key_ops_name all_key_ops.
(** src/messages/headers/jwk.rs:78-125 *)
Definition de_key_algorithm (bf : bool) : json -> option key_algorithm := de_enum bf key_algorithm_name all_key_algorithms.

(** [HashMap<String, V>] from the members of an object. src/messages/headers/jwk.rs:38-39,
    src/messages/headers/didcomm.rs:38-39, src/messages/headers/decorators.rs:36. *)
Definition de_map {V} (R : drt) (f : json -> option V) (es : list (string * json)) : option (list (string * V)) :=
  match all_some (map (fun kv => okv (fst kv) (f (snd kv))) es) with
  | Some l => Some (hord R V (map_of_entries l))
  | None => None
  end.

(** Members whose name is not in [names]. Flattened fields: src/messages/message.rs:42-47,
    src/messages/headers/jwk.rs:38, src/messages/jwe.rs:45, src/messages/jws.rs:80. *)
Definition rest_of (names : list string) (es : list (string * json)) : list (string * json) :=
  filter (fun e => negb (smem (fst e) names)) es.

(** src/messages/headers/jwk.rs:4-14 *)
Definition de_epk (j : json) : option epk :=
  let! g := view ["kty"; "crv"; "x"; "y"] j in
  let! kty := dreq de_string (g "kty") in
  let! crv := dreq de_string (g "crv") in
  let! x := dreq de_string (g "x") in
  let! y := dopt de_string (g "y") in
  Some {| ep_kty := kty; ep_crv := crv; ep_x := x; ep_y := y |}.

(** src/messages/headers/jwk.rs:17-40 *)
Definition jwk_fields : list string := ["kty"; "use"; "crv"; "key_ops"; "alg"; "kid"; "epk"].
(** src/messages/headers/jwk.rs:17-40 *)
Definition de_jwk (R : drt) (bf : bool) (j : json) : option jwk :=
  match j with
  | JObj es =>
      let g := member es in
      let! kty := dopt de_string (g "kty") in
      let! use := dopt de_string (g "use") in
      let! crv := dopt de_string (g "crv") in
      let! ops := dreq (de_vec (de_key_ops bf)) (g "key_ops") in
      let! alg := dreq (de_key_algorithm bf) (g "alg") in
      let! kid := dopt de_string (g "kid") in
      let! e := dopt de_epk (g "epk") in
      let! other := de_map R de_string (rest_of jwk_fields es) in
      Some {| jk_kty := kty; jk_use := use; jk_crv := crv; jk_key_ops := ops; jk_alg := alg;
              jk_kid := kid; jk_epk := e; jk_other := other |}
  | _ => None
  end.

(** src/messages/headers/jwm.rs:12-52 *)
Definition jwm_fields : list string := ["typ"; "enc"; "kid"; "skid"; "alg"; "jku"; "jwk"; "epk"; "cty"].
(** src/messages/headers/jwm.rs:12-52, the fields given by name *)
Definition de_jwm_from (R : drt) (bf : bool) (g : string -> option fld) : option jwm_header :=
  let! typ := dreq (de_message_type bf) (g "typ") in
  let! enc := dopt de_string (g "enc") in
  let! kid := dopt de_string (g "kid") in
  let! skid := dopt de_string (g "skid") in
  let! alg := dopt de_string (g "alg") in
  let! jku := dopt de_string (g "jku") in
  let! jk := dopt (de_jwk R bf) (g "jwk") in
  let! ep := dopt (de_jwk R bf) (g "epk") in
  let! cty := dopt de_string (g "cty") in
  Some {| jh_typ := typ; jh_enc := enc; jh_kid := kid; jh_skid := skid; jh_alg := alg;
          jh_jku := jku; jh_jwk := jk; jh_epk := ep; jh_cty := cty |}.
(** src/messages/headers/jwm.rs:12-52 *)
Definition de_jwm (R : drt) (bf : bool) (j : json) : option jwm_header :=
  let! g := view jwm_fields j in de_jwm_from R bf g.

(** src/messages/headers/prior_claims.rs:6-11 *)
Definition de_prior (j : json) : option prior_claims :=
  let! g := view ["sub"; "iss"] j in
  let! sub := dopt de_string (g "sub") in
  let! iss := dreq de_string (g "iss") in
  Some {| pc_sub := sub; pc_iss := iss |}.

(** src/messages/headers/decorators.rs:18-41 *)
Definition de_thread (R : drt) (j : json) : option thread :=
  let! g := view ["thid"; "pthid"; "sender_order"; "received_orders"; "goal_code"] j in
  let! thid := dreq de_string (g "thid") in
  let! pthid := dreq de_string (g "pthid") in
  let! so := dopt de_u64 (g "sender_order") in
  let! ro := dopt (fun j => match j with JObj es => de_map R de_u64 es | _ => None end) (g "received_orders") in
  let! gc := dopt de_string (g "goal_code") in
  Some {| th_thid := thid; th_pthid := pthid; th_sender_order := so; th_received_orders := ro; th_goal_code := gc |}.

(** src/messages/headers/didcomm.rs:7-40. [to] has skip_serializing_if but no default: it is required. *)
Definition didcomm_fields : list string :=
  ["id"; "thid"; "pthid"; "type"; "to"; "from"; "created_time"; "expires_time"; "from_prior"; "~thread"].
(** src/messages/headers/didcomm.rs:7-40 *)
Definition de_didcomm (R : drt) (es : list (string * json)) : option didcomm_header :=
  let g := member es in
  let! id := dreq de_string (g "id") in
  let! thid := dopt de_string (g "thid") in
  let! pthid := dopt de_string (g "pthid") in
  let! ty := dreq de_string (g "type") in
  let! to := dreq (de_vec de_string) (g "to") in
  let! from := dopt de_string (g "from") in
  let! cr := dopt de_u64 (g "created_time") in
  let! ex := dopt de_u64 (g "expires_time") in
  let! fp := dopt de_prior (g "from_prior") in
  let! th := dopt (de_thread R) (g "~thread") in
  let! other := de_map R de_string (rest_of didcomm_fields es) in
  Some {| dh_id := id; dh_thid := thid; dh_pthid := pthid; dh_type := ty; dh_to := to; dh_from := from;
          dh_created := cr; dh_expires := ex; dh_from_prior := fp; dh_thread := th; dh_other := other |}.

(** src/messages/jwe.rs:13-18 *)
Definition recipient_fields : list string := ["header"; "encrypted_key"].
(** src/messages/jwe.rs:13-18, the fields given by name *)
Definition de_recipient_from (R : drt) (bf : bool) (g : string -> option fld) : option recipient :=
  let! h := dreq (de_jwk R bf) (g "header") in
  let! k := dreq de_string (g "encrypted_key") in
  Some {| rc_header := h; rc_encrypted_key := k |}.
(** src/messages/jwe.rs:13-18 *)
Definition de_recipient (R : drt) (j : json) : option recipient :=
  let! g := view recipient_fields j in de_recipient_from R false g.

(** src/messages/attachment.rs:29-42 *)
Definition de_attachment_data (j : json) : option attachment_data :=
  let! g := view ["jws"; "hash"; "links"; "base64"; "json"] j in
  let! w := dopt de_string (g "jws") in
  let! h := dopt de_string (g "hash") in
  let! l := ddef [] (de_vec de_string) (g "links") in
  let! b := dopt de_string (g "base64") in
  let! s := dopt de_string (g "json") in
  Some {| ad_jws := w; ad_hash := h; ad_links := l; ad_base64 := b; ad_json := s |}.

(** src/messages/attachment.rs:9-26 *)
Definition de_attachment (j : json) : option attachment :=
  let! g := view ["id"; "description"; "filename"; "media_type"; "format"; "lastmod_time"; "byte_count"; "data"] j in
  let! id := dopt de_string (g "id") in
  let! ds := dopt de_string (g "description") in
  let! fn := dopt de_string (g "filename") in
  let! mt := dopt de_string (g "media_type") in
  let! fm := dopt de_string (g "format") in
  let! lm := dopt de_string (g "lastmod_time") in
  let! bc := dopt de_u64 (g "byte_count") in
  let! da := dreq de_attachment_data (g "data") in
  Some {| at_id := id; at_description := ds; at_filename := fn; at_media_type := mt; at_format := fm;
          at_lastmod := lm; at_byte_count := bc; at_data := da |}.

(** src/messages/message.rs:39-70. Own fields: recipients, body, attachments; the rest is buffered (one level of
    nesting is used up by the message object), [jwm_header] takes its members, [didcomm_header] gets what is left. *)
Definition message_fields : list string := ["recipients"; "body"; "attachments"].
(** src/messages/message.rs:39-70 *)
Definition de_message (R : drt) (j : json) : option message :=
  match j with
  | JObj es =>
      let g := member es in
      let! rs := dopt (de_vec (de_recipient R)) (g "recipients") in
      let! body := dreq (value_of R (max_depth - 1)) (g "body") in
      let! att := ddef [] (de_vec de_attachment) (g "attachments") in
      let rest := rest_of message_fields es in
      if forallb (fun e => buf_ok R (max_depth - 1) (snd e)) rest then
        let! jh := de_jwm_from R true (member rest) in
        let! dh := de_didcomm R (rest_of jwm_fields rest) in
        Some {| m_jwm := jh; m_did := dh; m_recipients := rs; m_body := body;
                m_flat_jwe := false; m_flat_jws := false; m_attachments := att |}
      else None
  | _ => None
  end.

(** src/messages/helpers/serialization.rs:35-45: base64url, then JSON text of an [Option<JwmHeader>]. *)
Definition de_protected (R : drt) (x : option fld) : option (option jwm_header) :=
  match ddef None (fun j => match j with JNull => Some None | _ => option_map Some (de_string j) end) x with
  | None => None
  | Some None => Some None
  | Some (Some v) =>
      let! buf := b64_decode v in
      let! j := parse_slice buf in
      dopt (de_jwm R false) (Some (Got j))
  end.

(** src/messages/jwe.rs:31-63; [recipient] is a flattened [Option]. *)
Definition jwe_fields : list string := ["protected"; "unprotected"; "recipients"; "ciphertext"; "iv"; "tag"].
(** src/messages/jwe.rs:31-63 *)
Definition de_jwe (R : drt) (j : json) : option jwe :=
  match j with
  | JObj es =>
      let g := member es in
      let! p := de_protected R (g "protected") in
      let! u := dopt (de_jwm R false) (g "unprotected") in
      let! rs := dopt (de_vec (de_recipient R)) (g "recipients") in
      let! c := dreq de_string (g "ciphertext") in
      let! iv := dreq de_string (g "iv") in
      let! tag := dopt de_string (g "tag") in
      let rest := rest_of jwe_fields es in
      if forallb (fun e => buf_ok R (max_depth - 1) (snd e)) rest then
        Some {| je_protected := p; je_unprotected := u;
                je_recipient := de_recipient_from R true (member rest); je_recipients := rs;
                je_ciphertext := c; je_iv := iv; je_tag := tag |}
      else None
  | _ => None
  end.

(** src/messages/helpers/serialization.rs:11-14: a *borrowed* byte string, so a string without escapes. *)
Definition de_b64_buffer (j : json) : option string :=
  match j with JStr false s => b64_decode s | _ => None end.

(** src/messages/jws.rs:13-29 *)
Definition signature_fields : list string := ["protected"; "header"; "signature"].
(** src/messages/jws.rs:13-29, the fields given by name *)
Definition de_signature_from (R : drt) (bf : bool) (g : string -> option fld) : option signature :=
  let! p := de_protected R (g "protected") in
  let! h := dopt (de_jwm R bf) (g "header") in
  let! s := ddef "" de_b64_buffer (g "signature") in
  Some {| sg_protected := p; sg_header := h; sg_signature := s |}.
(** src/messages/jws.rs:13-29 *)
Definition de_signature (R : drt) (j : json) : option signature :=
  let! g := view signature_fields j in de_signature_from R false g.

(** src/messages/jws.rs:73-88; [signature] is a flattened [Option]. *)
Definition jws_fields : list string := ["payload"; "signatures"].
(** src/messages/jws.rs:73-88 *)
Definition de_jws (R : drt) (j : json) : option jws :=
  match j with
  | JObj es =>
      let g := member es in
      let! p := dreq de_string (g "payload") in
      let! ss := dopt (de_vec (de_signature R)) (g "signatures") in
      let rest := rest_of jws_fields es in
      if forallb (fun e => buf_ok R (max_depth - 1) (snd e)) rest then
        Some {| js_payload := p; js_signature := de_signature_from R true (member rest); js_signatures := ss |}
      else None
  | _ => None
  end.

(** src/messages/mediated.rs:4-12 *)
Definition de_bytes (j : json) : option string :=
  match de_vec de_u8 j with
  | Some l => Some (string_of_list_ascii (map chr l))
  | None => None
  end.
(** src/messages/mediated.rs:4-12 *)
Definition de_mediated (j : json) : option mediated :=
  let! g := view ["next"; "payloads~attach"] j in
  let! n := dreq de_string (g "next") in
  let! p := dreq de_bytes (g "payloads~attach") in
  Some {| md_next := n; md_payload := p |}.

(** src/messages/helpers/receive.rs:17-27: which of the members signature / signatures / iv are present and not null.
    [Option<&RawValue>] accepts any value, whatever its nesting. *)
Record unknown_message := { un_signature : bool; un_signatures : bool; un_iv : bool }.
(** src/messages/helpers/receive.rs:19-26: one field of type [Option<&RawValue>] *)
Definition de_present (x : option fld) : option bool :=
  match dopt (fun j => Some j) x with Some (Some _) => Some true | Some None => Some false | None => None end.
(** src/messages/helpers/receive.rs:17-27 *)
Definition de_unknown (j : json) : option unknown_message :=
  let! g := view ["signature"; "signatures"; "iv"] j in
  let! s := de_present (g "signature") in
  let! ss := de_present (g "signatures") in
  let! iv := de_present (g "iv") in
  Some {| un_signature := s; un_signatures := ss; un_iv := iv |}.

(** [serde_json::to_string] of a message / JWE / JWS. A message: src/messages/message.rs:350,361,
    src/messages/message_raw_crypto.rs:50,145. *)
Definition message_json (m : message) : string := print (ser_message m).
(** [serde_json::to_string] of a JWE: src/messages/message.rs:395, src/messages/message_raw_crypto.rs:82. *)
Definition jwe_json (e : jwe) : string := print (ser_jwe e).
(** [serde_json::to_string] of a JWS: src/messages/message_raw_crypto.rs:163. *)
Definition jws_json (s : jws) : string := print (ser_jws s).

(** [serde_json::from_str::<T>]. A message: src/messages/message.rs:433, src/messages/helpers/receive.rs:39,138. *)
Definition message_from_str (R : drt) (s : string) : option message := let! j := parse s in de_message R j.
(** [serde_json::from_str::<Jwe>]: src/messages/helpers/receive.rs:58. *)
Definition jwe_from_str (R : drt) (s : string) : option jwe := let! j := parse s in de_jwe R j.
(** [serde_json::from_str::<Jws>]: src/messages/helpers/receive.rs:149. *)
Definition jws_from_str (R : drt) (s : string) : option jws := let! j := parse s in de_jws R j.
(** [serde_json::from_slice::<T>]. A message: src/messages/message.rs:603, src/messages/message_raw_crypto.rs:119,205.
    *)
Definition message_from_slice (R : drt) (s : string) : option message := let! j := parse_slice s in de_message R j.
(** [serde_json::from_slice::<Jwe>]: src/messages/message.rs:585, src/messages/message_raw_crypto.rs:102. *)
Definition jwe_from_slice (R : drt) (s : string) : option jwe := let! j := parse_slice s in de_jwe R j.
(** [serde_json::from_slice::<Jws>]: src/messages/message_raw_crypto.rs:170. *)
Definition jws_from_slice (R : drt) (s : string) : option jws := let! j := parse_slice s in de_jws R j.
