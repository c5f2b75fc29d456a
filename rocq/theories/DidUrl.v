(** The type [DidUrl] of src/messages/didurl.rs. No [mod] statement includes that file, so the crate is compiled without it; it is modelled as it
    would behave if it were included. *)

From Coq Require Import Ascii String NArith List Bool.
From Verif Require Import Bytes Json Types Serde Regex.
Import ListNotations.
Local Open Scope string_scope.

(** The pattern of src/messages/didurl.rs:18. The class in it contains the characters d, i and d; the text it matches need not be did. *)
Definition url_re : re :=
  let di := RCls (fun c => is_char 100 c || is_char 105 c)%bool in
  RSeq (RSeq di (RSeq di di)) (RSeq (RChr 58) (RSeq (RStar (RCls lower)) (RChr 58))).

(** [Regex::is_match] of a pattern that is not anchored (src/messages/didurl.rs:19): it matches some part of the text. *)
Definition found (r : re) (s : string) : bool :=
  let any := RStar (RCls (fun _ => true)) in
  re_match (RSeq any (RSeq r any)) s.

(** src/messages/didurl.rs:17-24. The value is the text it holds (src/messages/didurl.rs:7). *)
Definition did_url_from_str (s : string) : res string := if found url_re s then Ok s else Err EBadDid.

(** src/messages/didurl.rs:10-12 *)
Definition did_url_to_string (u : string) : string := u.

(** Derived at src/messages/didurl.rs:6-7: a struct with one unnamed field is written like the field. *)
Definition ser_did_url (u : string) : json := jstr u.
(** Derived at src/messages/didurl.rs:6-7: the text is taken as it is; [did_url_from_str] plays no part. *)
Definition de_did_url (j : json) : option string := de_string j.
(** [serde_json::from_str] for the type of src/messages/didurl.rs:6-7. *)
Definition did_url_from_json (text : string) : option string :=
  match parse text with Some j => de_did_url j | None => None end.
