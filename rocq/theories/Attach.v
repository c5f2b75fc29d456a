(** Attachments, out-of-band invitations and mediated payloads. Definitions only. *)

From Coq Require Import Ascii String Arith NArith List Bool.
From Verif Require Import Bytes Base64 Utf8 Json Value Types Serde Message.
Import ListNotations.
Local Open Scope string_scope.

(** src/messages/attachment.rs:45-56, 139-162; the builders are the structs themselves plus the [timed] flag. *)
Definition data_default : attachment_data :=
  {| ad_jws := None; ad_hash := None; ad_links := []; ad_base64 := None; ad_json := None |}.
(** src/messages/attachment.rs:9-26 ([Default]) *)
Definition attachment_default : attachment :=
  {| at_id := None; at_description := None; at_filename := None; at_media_type := None; at_format := None;
     at_lastmod := None; at_byte_count := None; at_data := data_default |}.
(** src/messages/attachment.rs:142-145 *)
Record attachment_builder := { ab_inner : attachment; ab_timed : bool }.

(** src/messages/attachment.rs:64-67, 77-80, 89-92, 101-104, 112-115, 123-126 *)
Definition with_jws (d : attachment_data) (s : string) : attachment_data :=
  {| ad_jws := Some s; ad_hash := ad_hash d; ad_links := ad_links d; ad_base64 := ad_base64 d; ad_json := ad_json d |}.
(** src/messages/attachment.rs:77-80 *)
Definition with_hash (d : attachment_data) (s : string) : attachment_data :=
  {| ad_jws := ad_jws d; ad_hash := Some s; ad_links := ad_links d; ad_base64 := ad_base64 d; ad_json := ad_json d |}.
(** src/messages/attachment.rs:89-92 *)
Definition with_link (d : attachment_data) (s : string) : attachment_data :=
  {| ad_jws := ad_jws d; ad_hash := ad_hash d; ad_links := (ad_links d ++ [s])%list; ad_base64 := ad_base64 d;
     ad_json := ad_json d |}.
(** src/messages/attachment.rs:112-115 *)
Definition with_encoded_payload (d : attachment_data) (s : string) : attachment_data :=
  {| ad_jws := ad_jws d; ad_hash := ad_hash d; ad_links := ad_links d; ad_base64 := Some s; ad_json := ad_json d |}.
(** src/messages/attachment.rs:101-104 *)
Definition with_raw_payload (d : attachment_data) (b : string) : attachment_data := with_encoded_payload d (b64_encode b).
(** src/messages/attachment.rs:123-126 *)
Definition with_json (d : attachment_data) (s : string) : attachment_data :=
  {| ad_jws := ad_jws d; ad_hash := ad_hash d; ad_links := ad_links d; ad_base64 := ad_base64 d; ad_json := Some s |}.

(** src/messages/attachment.rs:157-162 *)
Definition builder_new (include_mod_time : bool) : attachment_builder :=
  {| ab_inner := attachment_default; ab_timed := include_mod_time |}.

(** src/messages/attachment.rs:170-241 *)
Definition ab_map (b : attachment_builder) (f : attachment -> attachment) : attachment_builder :=
  {| ab_inner := f (ab_inner b); ab_timed := ab_timed b |}.
(** src/messages/attachment.rs:170-173 *)
Definition at_with_id (x : string) (a : attachment) : attachment :=
  {| at_id := Some x; at_description := at_description a; at_filename := at_filename a; at_media_type := at_media_type a;
     at_format := at_format a; at_lastmod := at_lastmod a; at_byte_count := at_byte_count a; at_data := at_data a |}.
(** src/messages/attachment.rs:181-184 *)
Definition at_with_description (x : string) (a : attachment) : attachment :=
  {| at_id := at_id a; at_description := Some x; at_filename := at_filename a; at_media_type := at_media_type a;
     at_format := at_format a; at_lastmod := at_lastmod a; at_byte_count := at_byte_count a; at_data := at_data a |}.
(** src/messages/attachment.rs:192-195 *)
Definition at_with_filename (x : string) (a : attachment) : attachment :=
  {| at_id := at_id a; at_description := at_description a; at_filename := Some x; at_media_type := at_media_type a;
     at_format := at_format a; at_lastmod := at_lastmod a; at_byte_count := at_byte_count a; at_data := at_data a |}.
(** src/messages/attachment.rs:203-206 *)
Definition at_with_media_type (x : string) (a : attachment) : attachment :=
  {| at_id := at_id a; at_description := at_description a; at_filename := at_filename a; at_media_type := Some x;
     at_format := at_format a; at_lastmod := at_lastmod a; at_byte_count := at_byte_count a; at_data := at_data a |}.
(** src/messages/attachment.rs:214-217 *)
Definition at_with_format (x : string) (a : attachment) : attachment :=
  {| at_id := at_id a; at_description := at_description a; at_filename := at_filename a; at_media_type := at_media_type a;
     at_format := Some x; at_lastmod := at_lastmod a; at_byte_count := at_byte_count a; at_data := at_data a |}.
(** src/messages/attachment.rs:243-247 *)
Definition at_with_lastmod (x : string) (a : attachment) : attachment :=
  {| at_id := at_id a; at_description := at_description a; at_filename := at_filename a; at_media_type := at_media_type a;
     at_format := at_format a; at_lastmod := Some x; at_byte_count := at_byte_count a; at_data := at_data a |}.
(** src/messages/attachment.rs:226-229 *)
Definition at_with_size (x : N) (a : attachment) : attachment :=
  {| at_id := at_id a; at_description := at_description a; at_filename := at_filename a; at_media_type := at_media_type a;
     at_format := at_format a; at_lastmod := at_lastmod a; at_byte_count := Some x; at_data := at_data a |}.
(** src/messages/attachment.rs:238-241 *)
Definition at_with_data (x : attachment_data) (a : attachment) : attachment :=
  {| at_id := at_id a; at_description := at_description a; at_filename := at_filename a; at_media_type := at_media_type a;
     at_format := at_format a; at_lastmod := at_lastmod a; at_byte_count := at_byte_count a; at_data := x |}.

(** src/messages/attachment.rs:243-252; [now] is the text of the current time. *)
Definition finalize (now : string) (b : attachment_builder) : attachment :=
  if ab_timed b then at_with_lastmod now (ab_inner b) else ab_inner b.

(** src/messages/attachment.rs:255-268; [data] is the serialised value (serialisation failures not modelled). *)
Definition builder_try_from (format : string) (data : json) : attachment_builder :=
  ab_map (ab_map (ab_map (builder_new true) (at_with_media_type "application/json")) (at_with_format format))
         (at_with_data (with_json data_default (print data))).

(** src/messages/attachment.rs:278-285 *)
Definition append_attachment (now : string) (m : message) (b : attachment_builder) : message :=
  with_attachments m (m_attachments m ++ [finalize now b])%list.
(** src/messages/attachment.rs:283-285 *)
Definition attachment_iter (m : message) : list attachment := m_attachments m.

(** src/messages/attachment.rs:291-316; [de] is [serde_json::from_str::<T>]. *)
Definition deserialize_attachment {T} (de : string -> option T) (a : attachment) : res T :=
  match at_media_type a with
  | Some mt =>
      if String.eqb mt "application/json" then
        match ad_json (at_data a) with
        | Some j => oerr (de j) ESerde
        | None =>
            match at_id a with
            | Some id => Err (EAttachment ("attachment with id " ++ id ++ " contains invalid JSON data"))
            | None => Err (EAttachment "NO ATTACHMENT ID")
            end
        end
      else Err (EAttachment "unsupported media type")
  | None => Err (EAttachment "unsupported media type")
  end.
(** [collect] into a [Result], src/messages/attachment.rs:298-315 *)
Fixpoint collect {A} (l : list (res A)) : res (list A) :=
  match l with
  | [] => Ok []
  | x :: r => let? a := x in let? b := collect r in Ok (a :: b)
  end.
(** The filter of src/messages/attachment.rs:298-315 *)
Definition has_format (fmt : string) (a : attachment) : bool :=
  match at_format a with Some f => String.eqb f fmt | None => false end.
(** src/messages/attachment.rs:291-316 *)
Definition deserialize_attachments {T} (de : string -> option T) (m : message) (fmt : string) : res (list T) :=
  if String.eqb fmt "application/json"
  then collect (map (deserialize_attachment de) (filter (has_format fmt) (m_attachments m)))
  else Err (EAttachment "unsupported media type").

(** src/messages/out_of_band.rs:12-29; each attachment is finalised with its own time text. *)
Definition out_of_band_invitation (R : drt) (m : message) (body : string)
    (atts : option (list (string * attachment_builder))) : res message :=
  let m1 := with_did (set_typ m DidCommRaw)
              (dh_with_type (m_did m) (message_type_name DidCommInvitation)) in
  let m2 := match atts with
            | Some l => fold_left (fun m tb => append_attachment (fst tb) m (snd tb)) l m1
            | None => m1
            end in
  if utf8_valid body then set_body R m2 body else Panic.

(** src/messages/mediated.rs:20-39 *)
Definition mediated_new (next : string) : mediated := {| md_next := next; md_payload := "" |}.
(** src/messages/mediated.rs:37-39 *)
Definition with_payload (m : mediated) (p : string) : mediated := {| md_next := md_next m; md_payload := p |}.

(** src/messages/mediated.rs:45-48: the body text is serialised once more (as a JSON string) before it is parsed. *)
Definition mediated_shape (m : message) : res mediated :=
  let? j := oerr (parse (print (jstr (get_body m)))) ESerde in
  oerr (de_mediated j) ESerde.
