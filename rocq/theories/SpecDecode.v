(** What the fields of a struct are, given the JSON document they are read from: a description of serde's derived readers
    by relations, independent of the decoders of Serde.v. *)

From Coq Require Import Ascii String Arith NArith List Bool Permutation.
From Verif Require Import Bytes Base64 Json Value Types Spec SpecText SpecJson.
Import ListNotations.
Local Open Scope string_scope.

(** ** Members *)

Definition missing (es : list (string * json)) (k : string) : Prop := ~ In k (map fst es).

(** The only member called [k]. *)
Definition only (es : list (string * json)) (k : string) (x : json) : Prop :=
  exists before after, es = (before ++ (k, x) :: after)%list /\ missing before k /\ missing after k.

(** The value of field [k] of a struct with these fields: the member of that name, or the element at its position. *)
Inductive given (fields : list string) : json -> string -> json -> Prop :=
| given_member : forall es k x, only es k x -> given fields (JObj es) k x
| given_element : forall l n k x, nth_error fields n = Some k -> nth_error l n = Some x -> given fields (JArr l) k x.

(** The field does not occur: no member of that name, or the array is too short. *)
Inductive omitted : json -> string -> Prop :=
| omitted_member : forall es k, missing es k -> omitted (JObj es) k.
Inductive cut_off (fields : list string) : json -> string -> Prop :=
| cut_off_element : forall l n k, nth_error fields n = Some k -> List.length l <= n -> cut_off fields (JArr l) k.

(** Documents a struct with these fields can be read from. *)
Inductive struct_like (fields : list string) : json -> Prop :=
| like_object : forall es, struct_like fields (JObj es)
| like_array : forall l, List.length l <= List.length fields -> struct_like fields (JArr l).

(** ** Kinds of fields *)

Definition required {A} (fields : list string) (j : json) (k : string) (P : json -> A -> Prop) (v : A) : Prop :=
  exists x, given fields j k x /\ P x v.
Definition optional {A} (fields : list string) (j : json) (k : string) (P : json -> A -> Prop) (o : option A) : Prop :=
  match o with
  | Some v => exists x, given fields j k x /\ x <> JNull /\ P x v
  | None => omitted j k \/ given fields j k JNull
  end.
Definition defaulted {A} (fields : list string) (j : json) (k : string) (P : json -> A -> Prop) (d v : A) : Prop :=
  required fields j k P v \/ ((omitted j k \/ cut_off fields j k) /\ v = d).

(** ** Types of fields *)

Definition text_of (x : json) (s : string) : Prop := exists e, x = JStr e s.

(** Unsigned integers up to a bound, written with digits only. *)
Definition digit_number (t : string) : N := fold_left (fun a c => (a * 10 + (N_of_ascii c - 48))%N) (list_ascii_of_string t) 0%N.
Definition natural (bound : N) (x : json) (n : N) : Prop :=
  exists t, x = JNum t /\ t <> "" /\ all_chars digit t /\ n = digit_number t /\ (n <= bound)%N.

Definition list_of {A} (P : json -> A -> Prop) (x : json) (l : list A) : Prop := exists xs, x = JArr xs /\ Forall2 P xs l.

(** One of the named variants, as text or as an object with null; in a buffer also as an object with {}. *)
Definition variant {A} (bf : bool) (table : list (string * A)) (x : json) (v : A) : Prop :=
  exists s, In (s, v) table /\ (text_of x s \/ x = JObj [(s, JNull)] \/ (bf = true /\ x = JObj [(s, JObj [])])).

(** A map read from all members whose names are not reserved: each of them must be readable, the last one of a name counts. *)
Definition collected {V} (reserved : list string) (P : json -> V -> Prop) (es : list (string * json)) (m : list (string * V)) : Prop :=
  unique_keys m /\
  (forall k v, In (k, v) m <-> ~ In k reserved /\ exists x, last_binding es k x /\ P x v) /\
  (forall k x, In (k, x) es -> ~ In k reserved -> exists v, P x v).
Definition map_of {V} (P : json -> V -> Prop) (x : json) (m : list (string * V)) : Prop :=
  exists es, x = JObj es /\ collected [] P es m.

(** All numbers can be read. *)
Inductive readable (R : drt) : json -> Prop :=
| ra_null : readable R JNull
| ra_bool : forall b, readable R (JBool b)
| ra_num : forall t t', num_reads R t t' -> readable R (JNum t)
| ra_str : forall e s, readable R (JStr e s)
| ra_arr : forall l, (forall x, In x l -> readable R x) -> readable R (JArr l)
| ra_obj : forall l, (forall kv, In kv l -> readable R (snd kv)) -> readable R (JObj l).

(** Members that are first kept in a buffer (because another field is flattened) are limited in nesting and numbers. *)
Definition buffered (R : drt) (own : list string) (es : list (string * json)) : Prop :=
  forall k x, In (k, x) es -> ~ In k own -> nested 126 x /\ readable R x.

Definition u64 : json -> N -> Prop := natural 18446744073709551615.

(** ** The structs *)

(** src/messages/headers/prior_claims.rs *)
Definition claims_text (j : json) (p : prior_claims) : Prop :=
  let f := ["sub"; "iss"] in
  struct_like f j /\ optional f j "sub" text_of (pc_sub p) /\ required f j "iss" text_of (pc_iss p).

(** src/messages/headers/jwk.rs *)
Definition epk_text (j : json) (e : epk) : Prop :=
  let f := ["kty"; "crv"; "x"; "y"] in
  struct_like f j /\ required f j "kty" text_of (ep_kty e) /\ required f j "crv" text_of (ep_crv e) /\
  required f j "x" text_of (ep_x e) /\ optional f j "y" text_of (ep_y e).
Definition jwk_text (bf : bool) (j : json) (k : jwk) : Prop :=
  exists es, j = JObj es /\
  optional [] j "kty" text_of (jk_kty k) /\ optional [] j "use" text_of (jk_use k) /\ optional [] j "crv" text_of (jk_crv k) /\
  required [] j "key_ops" (list_of (variant bf key_ops_table)) (jk_key_ops k) /\
  required [] j "alg" (variant bf key_algorithm_table) (jk_alg k) /\
  optional [] j "kid" text_of (jk_kid k) /\ optional [] j "epk" epk_text (jk_epk k) /\
  collected jwk_names text_of es (jk_other k).

(** src/messages/headers/jwm.rs *)
Definition jwm_names : list string := ["typ"; "enc"; "kid"; "skid"; "alg"; "jku"; "jwk"; "epk"; "cty"].
Definition jwm_members (bf : bool) (f : list string) (j : json) (h : jwm_header) : Prop :=
  required f j "typ" (variant bf message_type_table) (jh_typ h) /\ optional f j "enc" text_of (jh_enc h) /\
  optional f j "kid" text_of (jh_kid h) /\ optional f j "skid" text_of (jh_skid h) /\ optional f j "alg" text_of (jh_alg h) /\
  optional f j "jku" text_of (jh_jku h) /\ optional f j "jwk" (jwk_text bf) (jh_jwk h) /\ optional f j "epk" (jwk_text bf) (jh_epk h) /\
  optional f j "cty" text_of (jh_cty h).
Definition jwm_text (bf : bool) (j : json) (h : jwm_header) : Prop := struct_like jwm_names j /\ jwm_members bf jwm_names j h.

(** src/messages/headers/decorators.rs *)
Definition thread_text (j : json) (t : thread) : Prop :=
  let f := ["thid"; "pthid"; "sender_order"; "received_orders"; "goal_code"] in
  struct_like f j /\ required f j "thid" text_of (th_thid t) /\ required f j "pthid" text_of (th_pthid t) /\
  optional f j "sender_order" u64 (th_sender_order t) /\ optional f j "received_orders" (map_of u64) (th_received_orders t) /\
  optional f j "goal_code" text_of (th_goal_code t).

(** src/messages/headers/didcomm.rs, as part of a message *)
Definition didcomm_members (j : json) (d : didcomm_header) : Prop :=
  exists es, j = JObj es /\
  required [] j "id" text_of (dh_id d) /\ optional [] j "thid" text_of (dh_thid d) /\ optional [] j "pthid" text_of (dh_pthid d) /\
  required [] j "type" text_of (dh_type d) /\ required [] j "to" (list_of text_of) (dh_to d) /\
  optional [] j "from" text_of (dh_from d) /\ optional [] j "created_time" u64 (dh_created d) /\
  optional [] j "expires_time" u64 (dh_expires d) /\ optional [] j "from_prior" claims_text (dh_from_prior d) /\
  optional [] j "~thread" thread_text (dh_thread d) /\ collected header_names text_of es (dh_other d).

(** src/messages/jwe.rs *)
Definition recipient_members (bf : bool) (f : list string) (j : json) (r : recipient) : Prop :=
  required f j "header" (jwk_text bf) (rc_header r) /\ required f j "encrypted_key" text_of (rc_encrypted_key r).
Definition recipient_text (j : json) (r : recipient) : Prop :=
  let f := ["header"; "encrypted_key"] in struct_like f j /\ recipient_members false f j r.

(** src/messages/attachment.rs *)
Definition attachment_data_text (j : json) (a : attachment_data) : Prop :=
  let f := ["jws"; "hash"; "links"; "base64"; "json"] in
  struct_like f j /\ optional f j "jws" text_of (ad_jws a) /\ optional f j "hash" text_of (ad_hash a) /\
  defaulted f j "links" (list_of text_of) [] (ad_links a) /\ optional f j "base64" text_of (ad_base64 a) /\
  optional f j "json" text_of (ad_json a).
Definition attachment_text (j : json) (a : attachment) : Prop :=
  let f := ["id"; "description"; "filename"; "media_type"; "format"; "lastmod_time"; "byte_count"; "data"] in
  struct_like f j /\ optional f j "id" text_of (at_id a) /\ optional f j "description" text_of (at_description a) /\
  optional f j "filename" text_of (at_filename a) /\ optional f j "media_type" text_of (at_media_type a) /\
  optional f j "format" text_of (at_format a) /\ optional f j "lastmod_time" text_of (at_lastmod a) /\
  optional f j "byte_count" u64 (at_byte_count a) /\ required f j "data" attachment_data_text (at_data a).

(** src/messages/message.rs *)
Definition message_text (R : drt) (j : json) (m : message) : Prop :=
  exists es, j = JObj es /\
  optional [] j "recipients" (list_of recipient_text) (m_recipients m) /\
  required [] j "body" (fun x v => nested 126 x /\ reads R x v) (m_body m) /\
  defaulted [] j "attachments" (list_of attachment_text) [] (m_attachments m) /\
  jwm_members true [] j (m_jwm m) /\ didcomm_members j (m_did m) /\
  buffered R ["recipients"; "body"; "attachments"] es /\ m_flat_jwe m = false /\ m_flat_jws m = false.

(** src/messages/helpers/serialization.rs: a header as base64url of its JSON text; null and nothing mean no header. *)
Definition protected_field (f : list string) (j : json) (o : option jwm_header) : Prop :=
  (o = None /\ (omitted j "protected" \/ cut_off f j "protected" \/ given f j "protected" JNull)) \/
  exists x s bytes inner, given f j "protected" x /\ text_of x s /\ b64_decode s = Some bytes /\ utf8_text bytes /\ document bytes inner /\
    match o with Some h => inner <> JNull /\ jwm_text false inner h | None => inner = JNull end.

(** base64url in a text without escapes. *)
Definition bytes_of (x : json) (b : string) : Prop := exists s, x = JStr false s /\ b64_decode s = Some b.

(** src/messages/jws.rs *)
Definition signature_members (bf : bool) (f : list string) (j : json) (s : signature) : Prop :=
  protected_field f j (sg_protected s) /\ optional f j "header" (jwm_text bf) (sg_header s) /\
  defaulted f j "signature" bytes_of "" (sg_signature s).
Definition signature_text (j : json) (s : signature) : Prop :=
  let f := ["protected"; "header"; "signature"] in struct_like f j /\ signature_members false f j s.

(** A flattened optional part: there if its members can be read. *)
Definition flattened {A} (P : A -> Prop) (o : option A) : Prop :=
  match o with Some v => P v | None => forall v, ~ P v end.

Definition jws_text (R : drt) (j : json) (w : jws) : Prop :=
  exists es, j = JObj es /\ required [] j "payload" text_of (js_payload w) /\
  optional [] j "signatures" (list_of signature_text) (js_signatures w) /\
  flattened (signature_members true [] j) (js_signature w) /\ buffered R ["payload"; "signatures"] es.

Definition jwe_text (R : drt) (j : json) (e : jwe) : Prop :=
  exists es, j = JObj es /\ protected_field [] j (je_protected e) /\ optional [] j "unprotected" (jwm_text false) (je_unprotected e) /\
  flattened (recipient_members true [] j) (je_recipient e) /\ optional [] j "recipients" (list_of recipient_text) (je_recipients e) /\
  required [] j "ciphertext" text_of (je_ciphertext e) /\ required [] j "iv" text_of (je_iv e) /\
  optional [] j "tag" text_of (je_tag e) /\
  buffered R ["protected"; "unprotected"; "recipients"; "ciphertext"; "iv"; "tag"] es.

(** ** Equal up to the order of maps *)

Definition same_signature (a b : signature) : Prop :=
  orel same_header (sg_protected a) (sg_protected b) /\ orel same_header (sg_header a) (sg_header b) /\
  sg_signature a = sg_signature b.
Definition same_jws (a b : jws) : Prop :=
  js_payload a = js_payload b /\ orel same_signature (js_signature a) (js_signature b) /\
  orel (Forall2 same_signature) (js_signatures a) (js_signatures b).
Definition same_jwe (a b : jwe) : Prop :=
  orel same_header (je_protected a) (je_protected b) /\ orel same_header (je_unprotected a) (je_unprotected b) /\
  orel same_recipient (je_recipient a) (je_recipient b) /\ orel (Forall2 same_recipient) (je_recipients a) (je_recipients b) /\
  je_ciphertext a = je_ciphertext b /\ je_iv a = je_iv b /\ je_tag a = je_tag b.

(** src/messages/mediated.rs: the payload is an array of byte values. *)
Definition mediated_text (j : json) (m : mediated) : Prop :=
  let f := ["next"; "payloads~attach"] in
  struct_like f j /\ required f j "next" text_of (md_next m) /\
  required f j "payloads~attach" (fun x b => list_of (natural 255) x (map N_of_ascii (list_ascii_of_string b))) (md_payload m).

(** ** The same document up to the order of members *)

Inductive reordered : json -> json -> Prop :=
| ro_same : forall j, reordered j j
| ro_arr : forall l l', Forall2 reordered l l' -> reordered (JArr l) (JArr l')
| ro_obj : forall es es1 es', unique_keys es -> Permutation es es1 ->
    Forall2 (fun a b => fst a = fst b /\ reordered (snd a) (snd b)) es1 es' -> reordered (JObj es) (JObj es').

(** The body of the document does not use the name reserved by serde_json. *)
Definition ordinary_body (j : json) : Prop := forall es x, j = JObj es -> In ("body", x) es -> ordinary x.

(** ** What counts in a recipient entry *)

(** Two entries with the same public value of the ephemeral key, the same custom members [iv] and [tag] and the same wrapped
    key. Everything else may differ: [kid], [alg], [kty], [crv], [use], [key_ops], type, curve and [y] of the ephemeral key,
    further custom members. *)
Definition same_material (a b : recipient) : Prop :=
  option_map ep_x (jk_epk (rc_header a)) = option_map ep_x (jk_epk (rc_header b)) /\
  map_get "iv" (jk_other (rc_header a)) = map_get "iv" (jk_other (rc_header b)) /\
  map_get "tag" (jk_other (rc_header a)) = map_get "tag" (jk_other (rc_header b)) /\
  rc_encrypted_key a = rc_encrypted_key b.

(** Results of the same kind: related values, the same error, or both a panic. *)
Inductive same_result {A} (S : A -> A -> Prop) : res A -> res A -> Prop :=
| sr_ok : forall x y, S x y -> same_result S (Ok x) (Ok y)
| sr_err : forall e, same_result S (Err e) (Err e)
| sr_panic : same_result S Panic Panic.
