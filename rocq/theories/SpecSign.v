(** Specification vocabulary for signed envelopes (JWS, RFC 7515).  Nothing in this file is used by the model. *)

From Coq Require Import Ascii String Arith NArith List Bool Permutation.
From Verif Require Import Bytes Base64 Utf8 Json Value Types Serde Message Envelope Spec.
Import ListNotations.
Local Open Scope string_scope.

(** Signature algorithms and their registered names (RFC 7518 section 3.1, RFC 8037, RFC 8812). *)
Definition sig_table : list (string * signature_algorithm) := [("EdDSA", EdDsa); ("ES256", Es256); ("ES256K", Es256k)].

(** Base64url text of some bytes; up to two padding characters are tolerated. *)
Inductive padding : string -> Prop := pad0 : padding "" | pad1 : padding "=" | pad2 : padding "==".
Definition b64_text (bytes t : string) : Prop := exists t0 p, rfc4648 bytes t0 /\ padding p /\ t = t0 ++ p.

(** A struct is written as an object or, field by field in order, as an array. *)
Definition holds (names : list string) (j : json) (k : string) (v : json) : Prop :=
  match j with
  | JObj es => In (k, v) es /\ at_most_once es k
  | JArr l => exists i, nth_error names i = Some k /\ nth_error l i = Some v
  | _ => False
  end.
(** The field is missing or null. *)
Definition lacks (names : list string) (j : json) (k : string) : Prop := forall v, holds names j k v -> v = JNull.
Definition text_field (names : list string) (j : json) (k t : string) : Prop := exists e, holds names j k (JStr e t).

Definition jws_names : list string := ["payload"; "signatures"].
Definition entry_names : list string := ["protected"; "header"; "signature"].
Definition jose_names : list string := ["typ"; "enc"; "kid"; "skid"; "alg"; "jku"; "jwk"; "epk"; "cty"].

(** The signature entries of an envelope: the elements of [signatures], otherwise the envelope itself (flattened form). *)
Inductive sig_entry : json -> json -> Prop :=
| se_general : forall es l e, holds jws_names (JObj es) "signatures" (JArr l) -> In e l -> sig_entry (JObj es) e
| se_flat : forall es, lacks jws_names (JObj es) "signatures" -> sig_entry (JObj es) (JObj es).

(** The tree of the protected header of an entry: base64url of UTF-8 JSON text. *)
Definition protected_tree (e hj : json) : Prop :=
  exists t raw, text_field entry_names e "protected" t /\ b64_text raw t /\ rust_string raw /\ parse raw = Some hj.
Definition signature_bytes (e : json) (s : string) : Prop :=
  (exists t, text_field entry_names e "signature" t /\ b64_text s t) \/ ((forall v, ~ holds entry_names e "signature" v) /\ s = "").
(** The algorithm an entry names: the one of the unprotected header if there is one, otherwise the one of the protected header. *)
Definition names_alg (e hj : json) (a : string) : Prop :=
  (exists uj, holds entry_names e "header" uj /\ text_field jose_names uj "alg" a) \/
  ((forall uj, holds entry_names e "header" uj -> uj <> JNull -> lacks jose_names uj "alg") /\ text_field jose_names hj "alg" a).

(** Base64url of the JSON text the crate itself writes for a header. *)
Definition header_text (h : jwm_header) : string := b64_encode (print (ser_jwm h)).

(** The entry carries a signature that is valid under [key] over "header.payload", the header as the crate writes it. *)
Definition valid_entry (E : env) (R : drt) (key payload : string) (e : json) : Prop :=
  exists hj h s n a,
    protected_tree e hj /\ de_jwm R false hj = Some h /\ signature_bytes e s /\
    names_alg e hj n /\ In (n, a) sig_table /\
    sig_verify E a key (header_text h ++ "." ++ payload) s = Some true.

(** [text] is a signed envelope with a signature valid under [key] whose payload is the message [m]. *)
Definition authentic (E : env) (R1 R2 : drt) (text key : string) (m : message) : Prop :=
  exists j payload e raw,
    parse text = Some j /\ text_field jws_names j "payload" payload /\ sig_entry j e /\ valid_entry E R1 key payload e /\
    b64_text raw payload /\ message_from_slice R2 raw = Some m.

(** At most one custom member in each embedded key. *)
Definition few_custom (h : jwm_header) : Prop :=
  opt_all (fun k => List.length (jk_other k) <= 1) (jh_jwk h) /\ opt_all (fun k => List.length (jk_other k) <= 1) (jh_epk h).

(** Two or more of them in some embedded key. *)
Definition many_custom (h : jwm_header) : Prop :=
  (exists k, jh_jwk h = Some k /\ 2 <= List.length (jk_other k)) \/ (exists k, jh_epk h = Some k /\ 2 <= List.length (jk_other k)).

(** A signature is accepted for nothing but the signed text (idealisation of unforgeability), and is never malformed. *)
Definition exact_pair (E : env) (a : signature_algorithm) (sk pk : string) : Prop :=
  forall msg s, sig_sign E a sk msg = Some s ->
    forall msg', sig_verify E a pk msg' s = Some (if String.eqb msg' msg then true else false).

(** How one entry fares. *)
Inductive entry_outcome (E : env) (payload key : string) (s : signature) : option bool -> Prop :=
| eo_checked : forall h n a b,
    sg_protected s = Some h ->
    (exists u, sg_header s = Some u /\ jh_alg u = Some n) \/
    ((forall u, sg_header s = Some u -> jh_alg u = None) /\ jh_alg h = Some n) ->
    In (n, a) sig_table -> sig_verify E a key (header_text h ++ "." ++ payload) (sg_signature s) = Some b ->
    entry_outcome E payload key s (Some b)
| eo_no_header : sg_protected s = None -> entry_outcome E payload key s None
| eo_no_alg : forall h, sg_protected s = Some h -> jh_alg h = None -> (forall u, sg_header s = Some u -> jh_alg u = None) ->
    entry_outcome E payload key s None
| eo_unknown_alg : forall h n,
    sg_protected s = Some h ->
    (exists u, sg_header s = Some u /\ jh_alg u = Some n) \/
    ((forall u, sg_header s = Some u -> jh_alg u = None) /\ jh_alg h = Some n) ->
    (forall a, ~ In (n, a) sig_table) -> entry_outcome E payload key s None
| eo_malformed : forall h n a,
    sg_protected s = Some h ->
    (exists u, sg_header s = Some u /\ jh_alg u = Some n) \/
    ((forall u, sg_header s = Some u -> jh_alg u = None) /\ jh_alg h = Some n) ->
    In (n, a) sig_table -> sig_verify E a key (header_text h ++ "." ++ payload) (sg_signature s) = None ->
    entry_outcome E payload key s None.

(** The entries of a decoded envelope. *)
Definition has_entries (w : jws) (l : list signature) : Prop :=
  js_signatures w = Some l \/ (js_signatures w = None /\ exists s, js_signature w = Some s /\ l = [s]).

(** The flattened JSON serialisation (RFC 7515 section 7.2.2) for given header bytes, payload text and signature bytes. *)
Definition flat_envelope (raw payload s : string) : string :=
  print (JObj [("payload", jstr payload); ("protected", jstr (b64_encode raw)); ("signature", jstr (b64_encode s))]).
