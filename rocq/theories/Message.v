(** Builders, setters and getters of [Message] and its headers. Definitions only. *)

From Coq Require Import Ascii String Arith NArith List Bool.
From Verif Require Import Bytes Base64 Utf8 Json Value Types Serde.
Import ListNotations.
Local Open Scope string_scope.

(** ** Defaults *)

(** src/messages/headers/jwm.rs:99-114 *)
Definition jwm_default : jwm_header :=
  {| jh_typ := DidCommRaw; jh_enc := None; jh_kid := None; jh_skid := None; jh_alg := None;
     jh_jku := None; jh_jwk := None; jh_epk := None; jh_cty := None |}.

(** src/messages/headers/didcomm.rs:44-64; the uuid is a parameter. *)
Definition didcomm_new (uuid : string) : didcomm_header :=
  {| dh_id := uuid; dh_thid := None; dh_pthid := None; dh_type := "JWM"; dh_to := [""]; dh_from := Some "";
     dh_created := None; dh_expires := None; dh_from_prior := None; dh_thread := None; dh_other := [] |}.

(** src/messages/message.rs:75-88 (logging initialisation dropped) *)
Definition message_new (uuid : string) : message :=
  {| m_jwm := jwm_default; m_did := didcomm_new uuid; m_recipients := None; m_body := JObj [];
     m_flat_jwe := false; m_flat_jws := false; m_attachments := [] |}.

(** ** Field updates (assignments to fields) *)

(** Field of src/messages/message.rs:43, assigned at 255 *)
Definition with_jwm (m : message) (h : jwm_header) : message :=
  {| m_jwm := h; m_did := m_did m; m_recipients := m_recipients m; m_body := m_body m;
     m_flat_jwe := m_flat_jwe m; m_flat_jws := m_flat_jws m; m_attachments := m_attachments m |}.
(** Field of src/messages/message.rs:47, assigned at 206, 322 *)
Definition with_did (m : message) (d : didcomm_header) : message :=
  {| m_jwm := m_jwm m; m_did := d; m_recipients := m_recipients m; m_body := m_body m;
     m_flat_jwe := m_flat_jwe m; m_flat_jws := m_flat_jws m; m_attachments := m_attachments m |}.
(** Field of src/messages/message.rs:51, assigned at 531 *)
Definition with_recipients (m : message) (r : option (list recipient)) : message :=
  {| m_jwm := m_jwm m; m_did := m_did m; m_recipients := r; m_body := m_body m;
     m_flat_jwe := m_flat_jwe m; m_flat_jws := m_flat_jws m; m_attachments := m_attachments m |}.
(** Field of src/messages/message.rs:56, assigned at 198, 632 *)
Definition with_body (m : message) (b : json) : message :=
  {| m_jwm := m_jwm m; m_did := m_did m; m_recipients := m_recipients m; m_body := b;
     m_flat_jwe := m_flat_jwe m; m_flat_jws := m_flat_jws m; m_attachments := m_attachments m |}.
(** Field of src/messages/message.rs:61, assigned at 108 *)
Definition with_flat_jwe (m : message) (b : bool) : message :=
  {| m_jwm := m_jwm m; m_did := m_did m; m_recipients := m_recipients m; m_body := m_body m;
     m_flat_jwe := b; m_flat_jws := m_flat_jws m; m_attachments := m_attachments m |}.
(** Field of src/messages/message.rs:66, assigned at 116 *)
Definition with_flat_jws (m : message) (b : bool) : message :=
  {| m_jwm := m_jwm m; m_did := m_did m; m_recipients := m_recipients m; m_body := m_body m;
     m_flat_jwe := m_flat_jwe m; m_flat_jws := b; m_attachments := m_attachments m |}.
(** Field of src/messages/message.rs:69, changed at src/messages/attachment.rs:279 *)
Definition with_attachments (m : message) (l : list attachment) : message :=
  {| m_jwm := m_jwm m; m_did := m_did m; m_recipients := m_recipients m; m_body := m_body m;
     m_flat_jwe := m_flat_jwe m; m_flat_jws := m_flat_jws m; m_attachments := l |}.

(** Field of src/messages/headers/jwm.rs:14, assigned at 59, 77 *)
Definition jh_with_typ (h : jwm_header) (t : message_type) : jwm_header :=
  {| jh_typ := t; jh_enc := jh_enc h; jh_kid := jh_kid h; jh_skid := jh_skid h; jh_alg := jh_alg h;
     jh_jku := jh_jku h; jh_jwk := jh_jwk h; jh_epk := jh_epk h; jh_cty := jh_cty h |}.
(** Field of src/messages/headers/jwm.rs:18, assigned at 80, 84, 89 *)
Definition jh_with_enc (h : jwm_header) (x : option string) : jwm_header :=
  {| jh_typ := jh_typ h; jh_enc := x; jh_kid := jh_kid h; jh_skid := jh_skid h; jh_alg := jh_alg h;
     jh_jku := jh_jku h; jh_jwk := jh_jwk h; jh_epk := jh_epk h; jh_cty := jh_cty h |}.
(** Field of src/messages/headers/jwm.rs:22, assigned at 95, src/messages/message.rs:163 *)
Definition jh_with_kid (h : jwm_header) (x : option string) : jwm_header :=
  {| jh_typ := jh_typ h; jh_enc := jh_enc h; jh_kid := x; jh_skid := jh_skid h; jh_alg := jh_alg h;
     jh_jku := jh_jku h; jh_jwk := jh_jwk h; jh_epk := jh_epk h; jh_cty := jh_cty h |}.
(** Field of src/messages/headers/jwm.rs:25, assigned at src/messages/message_raw_crypto.rs:40,44 *)
Definition jh_with_skid (h : jwm_header) (x : option string) : jwm_header :=
  {| jh_typ := jh_typ h; jh_enc := jh_enc h; jh_kid := jh_kid h; jh_skid := x; jh_alg := jh_alg h;
     jh_jku := jh_jku h; jh_jwk := jh_jwk h; jh_epk := jh_epk h; jh_cty := jh_cty h |}.
(** Field of src/messages/headers/jwm.rs:30, assigned at 62-68, 81-88 *)
Definition jh_with_alg (h : jwm_header) (x : option string) : jwm_header :=
  {| jh_typ := jh_typ h; jh_enc := jh_enc h; jh_kid := jh_kid h; jh_skid := jh_skid h; jh_alg := x;
     jh_jku := jh_jku h; jh_jwk := jh_jwk h; jh_epk := jh_epk h; jh_cty := jh_cty h |}.

(** Field of src/messages/headers/didcomm.rs:12, assigned at 84-95, src/messages/message.rs:333 *)
Definition dh_with_thid (d : didcomm_header) (x : option string) : didcomm_header :=
  {| dh_id := dh_id d; dh_thid := x; dh_pthid := dh_pthid d; dh_type := dh_type d; dh_to := dh_to d;
     dh_from := dh_from d; dh_created := dh_created d; dh_expires := dh_expires d; dh_from_prior := dh_from_prior d;
     dh_thread := dh_thread d; dh_other := dh_other d |}.
(** Field of src/messages/headers/didcomm.rs:15, assigned at 84-95, src/messages/message.rs:339 *)
Definition dh_with_pthid (d : didcomm_header) (x : option string) : didcomm_header :=
  {| dh_id := dh_id d; dh_thid := dh_thid d; dh_pthid := x; dh_type := dh_type d; dh_to := dh_to d;
     dh_from := dh_from d; dh_created := dh_created d; dh_expires := dh_expires d; dh_from_prior := dh_from_prior d;
     dh_thread := dh_thread d; dh_other := dh_other d |}.
(** Field of src/messages/headers/didcomm.rs:18, assigned at src/messages/message.rs:261 *)
Definition dh_with_type (d : didcomm_header) (x : string) : didcomm_header :=
  {| dh_id := dh_id d; dh_thid := dh_thid d; dh_pthid := dh_pthid d; dh_type := x; dh_to := dh_to d;
     dh_from := dh_from d; dh_created := dh_created d; dh_expires := dh_expires d; dh_from_prior := dh_from_prior d;
     dh_thread := dh_thread d; dh_other := dh_other d |}.
(** Field of src/messages/headers/didcomm.rs:21, changed at 96, 111, src/messages/message.rs:304-314 *)
Definition dh_with_to (d : didcomm_header) (x : list string) : didcomm_header :=
  {| dh_id := dh_id d; dh_thid := dh_thid d; dh_pthid := dh_pthid d; dh_type := dh_type d; dh_to := x;
     dh_from := dh_from d; dh_created := dh_created d; dh_expires := dh_expires d; dh_from_prior := dh_from_prior d;
     dh_thread := dh_thread d; dh_other := dh_other d |}.
(** Field of src/messages/headers/didcomm.rs:23, assigned at src/messages/message.rs:212 *)
Definition dh_with_from (d : didcomm_header) (x : option string) : didcomm_header :=
  {| dh_id := dh_id d; dh_thid := dh_thid d; dh_pthid := dh_pthid d; dh_type := dh_type d; dh_to := dh_to d;
     dh_from := x; dh_created := dh_created d; dh_expires := dh_expires d; dh_from_prior := dh_from_prior d;
     dh_thread := dh_thread d; dh_other := dh_other d |}.
(** Field of src/messages/headers/didcomm.rs:26, assigned at src/messages/message.rs:294-298 *)
Definition dh_with_created (d : didcomm_header) (x : option N) : didcomm_header :=
  {| dh_id := dh_id d; dh_thid := dh_thid d; dh_pthid := dh_pthid d; dh_type := dh_type d; dh_to := dh_to d;
     dh_from := dh_from d; dh_created := x; dh_expires := dh_expires d; dh_from_prior := dh_from_prior d;
     dh_thread := dh_thread d; dh_other := dh_other d |}.
(** Field of src/messages/headers/didcomm.rs:29, assigned at src/messages/message.rs:293 *)
Definition dh_with_expires (d : didcomm_header) (x : option N) : didcomm_header :=
  {| dh_id := dh_id d; dh_thid := dh_thid d; dh_pthid := dh_pthid d; dh_type := dh_type d; dh_to := dh_to d;
     dh_from := dh_from d; dh_created := dh_created d; dh_expires := x; dh_from_prior := dh_from_prior d;
     dh_thread := dh_thread d; dh_other := dh_other d |}.
(** Field of src/messages/headers/didcomm.rs:37, assigned at 87 *)
Definition dh_with_thread (d : didcomm_header) (x : option thread) : didcomm_header :=
  {| dh_id := dh_id d; dh_thid := dh_thid d; dh_pthid := dh_pthid d; dh_type := dh_type d; dh_to := dh_to d;
     dh_from := dh_from d; dh_created := dh_created d; dh_expires := dh_expires d; dh_from_prior := dh_from_prior d;
     dh_thread := x; dh_other := dh_other d |}.
(** Field of src/messages/headers/didcomm.rs:39, changed at src/messages/message.rs:96 *)
Definition dh_with_other (d : didcomm_header) (x : list (string * string)) : didcomm_header :=
  {| dh_id := dh_id d; dh_thid := dh_thid d; dh_pthid := dh_pthid d; dh_type := dh_type d; dh_to := dh_to d;
     dh_from := dh_from d; dh_created := dh_created d; dh_expires := dh_expires d; dh_from_prior := dh_from_prior d;
     dh_thread := dh_thread d; dh_other := x |}.

(** ** Algorithm headers *)

(** src/messages/headers/jwm.rs:57-71 *)
Definition sig_alg_name (a : signature_algorithm) : string :=
  match a with EdDsa => "EdDSA" | Es256 => "ES256" | Es256k => "ES256K" end.
(** src/messages/headers/jwm.rs:58-71 *)
Definition as_signed (h : jwm_header) (a : signature_algorithm) : jwm_header :=
  jh_with_alg (jh_with_typ h DidCommJws) (Some (sig_alg_name a)).

(** src/messages/headers/jwm.rs:76-92. For A256CBC the two members are swapped in the source. *)
Definition as_encrypted (h : jwm_header) (a : crypto_algorithm) : jwm_header :=
  let h := jh_with_typ h DidCommJwe in
  match a with
  | A256GCM => jh_with_alg (jh_with_enc h (Some "A256GCM")) (Some "ECDH-1PU+A256KW")
  | XC20P => jh_with_alg (jh_with_enc h (Some "XC20P")) (Some "ECDH-1PU+XC20PKW")
  | A256CBC => jh_with_enc (jh_with_alg h (Some "A256CBC")) (Some "ECDH-1PU+A256KW")
  end.

(** src/crypto/encryptor.rs:123-132 *)
Definition crypto_alg_of (s : string) : res crypto_algorithm :=
  if String.eqb s "ECDH-1PU+A256KW" then Ok A256GCM
  else if String.eqb s "ECDH-1PU+XC20PKW" then Ok XC20P
  else Err EJweParse.

(** src/crypto/signer.rs:97-108 *)
Definition sig_alg_of (s : string) : res signature_algorithm :=
  if String.eqb s "EdDSA" then Ok EdDsa
  else if String.eqb s "ES256" then Ok Es256
  else if String.eqb s "ES256K" then Ok Es256k
  else Err EJwsParse.

(** ** Threads *)

(** src/messages/headers/decorators.rs:54-60 *)
Definition thread_implicit (id : string) : thread :=
  {| th_thid := id; th_pthid := ""; th_sender_order := Some 0%N; th_received_orders := None; th_goal_code := None |}.
(** src/messages/headers/decorators.rs:72-77 *)
Definition thread_implicit_reply (thid : string) : thread :=
  {| th_thid := thid; th_pthid := ""; th_sender_order := None; th_received_orders := None; th_goal_code := None |}.
(** src/messages/headers/decorators.rs:80-84 *)
Definition thread_effective_reply (thid sender : string) : thread :=
  {| th_thid := thid; th_pthid := ""; th_sender_order := None; th_received_orders := Some [(sender, 0%N)];
     th_goal_code := None |}.
(** src/messages/headers/decorators.rs:87-96 *)
Definition is_implicit_reply (t : thread) (id : string) : bool :=
  if String.eqb (th_thid t) id then false
  else match th_received_orders t with
       | Some ro => forallb (fun kv => (snd kv =? 0)%N) ro
       | None => true
       end.

(** src/messages/headers/didcomm.rs:83-97 *)
Definition dh_reply_to (d sender : didcomm_header) : didcomm_header :=
  let d1 :=
    match dh_thread sender with
    | Some t =>
        if is_implicit_reply t (dh_id sender)
        then dh_with_thid (dh_with_thread d (Some (thread_implicit_reply (th_thid t)))) (Some (th_thid t))
        else dh_with_pthid (dh_with_thid d (dh_thid sender)) (dh_pthid sender)
    | None => dh_with_pthid (dh_with_thid d (dh_thid sender)) (dh_pthid sender)
    end in
  dh_with_to d1 (dh_to d1 ++ [or_empty (dh_from sender)])%list.

(** src/messages/headers/didcomm.rs:68-75 *)
Definition dh_message_uri (d : didcomm_header) : string :=
  "didcomm://" ++ dh_id d ++ or_empty (dh_thid d) ++ or_empty (dh_pthid d).

(** src/messages/headers/didcomm.rs:105-121; [clock] is the time since the epoch, [None] before the epoch. The error
    kind ([SystemTimeError]) is rendered as [EGeneric]. *)
Definition dh_forward (uuid : string) (clock : option N) (to : list string) (from : option string) (expires : option N)
  : res didcomm_header :=
  let? now := oerr clock (EGeneric "system time") in
  Ok (dh_with_expires (dh_with_created (dh_with_from (dh_with_to (didcomm_new uuid) to) from) (Some now)) expires).

(** ** Message setters *)

(** src/messages/message.rs:92-98 *)
Definition add_header_field (m : message) (k v : string) : message :=
  if String.eqb k "" then m else with_did m (dh_with_other (m_did m) (map_insert k v (dh_other (m_did m)))).

(** src/messages/message.rs:190-193, 115-118 *)
Definition as_jws (m : message) (a : signature_algorithm) : message := with_jwm m (as_signed (m_jwm m) a).
(** src/messages/message.rs:115-118 *)
Definition as_flat_jws (m : message) (a : signature_algorithm) : message := as_jws (with_flat_jws m true) a.

(** A resolved DID document (crate ddoresolver-rs): public keys and key ids per curve. Used at
    src/messages/message.rs:165-180, src/messages/helpers/encryption.rs:354-357. *)
Record did_doc := { doc_key : string -> option string; doc_key_id : string -> option string }.

(** src/messages/message.rs:160-183 (feature resolve on); [resolve] is [resolve_any]. *)
Definition as_jwe (resolve : string -> option did_doc) (m : message) (a : crypto_algorithm) (key : option string)
  : message :=
  let h := as_encrypted (m_jwm m) a in
  match key with
  | Some k => with_jwm m (jh_with_kid h (Some (b64_encode k)))
  | None =>
      match dh_from (m_did m) with
      | Some from =>
          match resolve from with
          | Some doc =>
              with_jwm m (jh_with_kid h (doc_key_id doc (match a with XC20P => "X25519" | _ => "P-256" end)))
          | None => with_jwm m h
          end
      | None => with_jwm m h
      end
  end.
(** src/messages/message.rs:103-110 *)
Definition as_flat_jwe (resolve : string -> option did_doc) (m : message) (a : crypto_algorithm) (key : option string)
  : message := as_jwe resolve (with_flat_jwe m true) a key.

(** src/messages/message.rs:122-124, 130-133, 142-152 *)
Definition message_uri (m : message) : string := dh_message_uri (m_did m).
(** src/messages/message.rs:130-133 *)
Definition reply_to (m replying_to : message) : message := with_did m (dh_reply_to (m_did m) (m_did replying_to)).
(** src/messages/message.rs:142-152 *)
Definition with_parent (m parent : message) : message :=
  with_did m (dh_with_pthid (m_did m)
    (Some (match dh_thid (m_did parent) with Some t => t | None => dh_id (m_did parent) end))).

(** src/messages/message.rs:197-200 *)
Definition set_body (R : drt) (m : message) (text : string) : res message :=
  let? j := oerr (parse text) ESerde in
  let? b := oerr (value_of R max_depth j) ESerde in
  Ok (with_body m b).

(** src/messages/message.rs:217-219; serialising a [Value] cannot fail. *)
Definition get_body (m : message) : string := print (m_body m).

(** src/messages/message.rs:205-208 and 321-324 *)
Definition set_didcomm_header (m : message) (d : didcomm_header) : message := with_did m d.
(** src/messages/message.rs:211-214 *)
Definition set_from (m : message) (from : string) : message := with_did m (dh_with_from (m_did m) (Some from)).
(** src/messages/message.rs:247-249, 233-243 *)
Definition is_rotation (m : message) : bool :=
  match dh_from_prior (m_did m) with Some _ => true | None => false end.
(** src/messages/message.rs:233-243 *)
Definition get_prior (m : message) : res prior_claims :=
  if is_rotation m then oerr (dh_from_prior (m_did m)) ENoRotationData else Err ENoRotationData.
(** src/messages/message.rs:254-257, 260-263, 270-273, 276-284 *)
Definition set_jwm_header (m : message) (h : jwm_header) : message := with_jwm m h.
(** src/messages/message.rs:260-263 *)
Definition set_m_type (m : message) (t : string) : message := with_did m (dh_with_type (m_did m) t).
(** src/messages/message.rs:270-273 *)
Definition set_typ (m : message) (t : message_type) : message := with_jwm m (jh_with_typ (m_jwm m) t).
(** src/messages/message.rs:276-284 *)
Definition set_kid (m : message) (k : string) : message :=
  match jh_kid (m_jwm m) with
  | Some _ => with_jwm m (jh_with_kid (m_jwm m) (Some k))
  | None => with_jwm m (jh_with_kid (m_jwm m) (Some k))
  end.
(** src/messages/message.rs:292-300 *)
Definition timed (clock : option N) (m : message) (expires : option N) : message :=
  with_did m (dh_with_created (dh_with_expires (m_did m) expires) clock).

(** src/messages/message.rs:303-316: push all, then remove the first empty entry as long as there is one. *)
Fixpoint position_empty (l : list string) : option nat :=
  match l with
  | [] => None
  | x :: r => if String.eqb x "" then Some 0 else option_map S (position_empty r)
  end.
(** [Vec::remove], src/messages/message.rs:303-316 *)
Fixpoint remove_at (n : nat) (l : list string) : list string :=
  match n, l with
  | _, [] => []
  | O, _ :: r => r
  | S n', x :: r => x :: remove_at n' r
  end.
(** The loop of src/messages/message.rs:303-316 *)
Fixpoint remove_empties (fuel : nat) (l : list string) : list string :=
  match fuel with
  | O => l
  | S f => match position_empty l with Some a => remove_empties f (remove_at a l) | None => l end
  end.
(** src/messages/message.rs:303-316 *)
Definition set_to (m : message) (to : list string) : message :=
  let l := (dh_to (m_did m) ++ to)%list in
  with_did m (dh_with_to (m_did m) (remove_empties (S (List.length l)) l)).

(** src/messages/message.rs:327-329, 332-335, 338-341 *)
Definition application_params (m : message) : list (string * string) := dh_other (m_did m).
(** src/messages/message.rs:332-335 *)
Definition set_thid (m : message) (t : string) : message := with_did m (dh_with_thid (m_did m) (Some t)).
(** src/messages/message.rs:338-341 *)
Definition set_pthid (m : message) (t : string) : message := with_did m (dh_with_pthid (m_did m) (Some t)).

(** src/messages/message.rs:349-351; serialising a [Message] cannot fail (all map keys are strings). *)
Definition as_raw_json (m : message) : string := message_json m.

(** ** Fallback getters (src/messages/helpers/getters.rs:18-46) *)

(** src/messages/helpers/getters.rs:18-46 *)
Definition fallback {A} (primary secondary : option jwm_header) (f : jwm_header -> option A) : option A :=
  match primary with
  | Some h =>
      match f h with
      | Some v => Some v
      | None => match secondary with Some h' => f h' | None => None end
      end
  | None => match secondary with Some h' => f h' | None => None end
  end.
(** src/messages/jwe.rs:124-138 *)
Definition jwe_get {A} (e : jwe) (f : jwm_header -> option A) : option A := fallback (je_protected e) (je_unprotected e) f.
(** src/messages/jws.rs:54-68 *)
Definition sig_get {A} (s : signature) (f : jwm_header -> option A) : option A := fallback (sg_header s) (sg_protected s) f.
