(** Vocabulary for what an outcome depends on: iteration orders of hash maps, and the parts of a message that an encrypted
    envelope shows. Nothing in this file is used by the model. *)

From Coq Require Import Ascii String Arith NArith List Bool Permutation.
From Verif Require Import Bytes Json Value Types Serde Message Envelope Spec SpecText SpecSign SpecSeal SpecJson SpecDecode.
Import ListNotations.
Local Open Scope string_scope.

(** The same environment, except for the order in which hash maps are iterated. *)
Definition reorder (E : env) (order : nat -> forall V : Type, list (string * V) -> list (string * V)) : env :=
  {| x_pub := x_pub E; x_dh := x_dh E; xc_enc := xc_enc E; xc_dec := xc_dec E; gcm_enc := gcm_enc E; gcm_dec := gcm_dec E;
     cbc_enc := cbc_enc E; sig_sign := sig_sign E; sig_verify := sig_verify E; resolve := resolve E; fl := fl E; ho := order |}.

(** No protected header of the envelope embeds a key with two or more custom members. *)
Definition calm_signature (s : signature) : Prop := opt_all few_custom (sg_protected s).
Definition calm_envelope (E : env) (text : string) : Prop := forall j, document text j ->
  (forall e, jwe_text (rt E 0) j e -> opt_all few_custom (je_protected e)) /\
  (forall w, jws_text (rt E 0) j w -> opt_all calm_signature (js_signature w) /\ opt_all (Forall calm_signature) (js_signatures w)).
(** The same for an envelope in the body of a message. *)
Definition calm (E : env) (text : string) : Prop :=
  calm_envelope E text /\ forall j m, document text j -> message_text (rt E 0) j m -> calm_envelope E (get_body m).
(** The same for what the given keys open an encrypted envelope to. *)
Definition calm_inside (E : env) (text : string) (sk pk : option string) : Prop := forall k t, sk = Some k -> receive_jwe E text k pk = Ok t -> calm E t.

(** ** What an encrypted envelope shows *)

(** Two messages with the same envelope header, sender and recipients, in the same form. Identifiers, types, threads, times,
    custom headers, bodies and attachments may differ. *)
Definition alike (m m' : message) : Prop :=
  m_jwm m = m_jwm m' /\ dh_from (m_did m) = dh_from (m_did m') /\ dh_to (m_did m) = dh_to (m_did m') /\ m_flat_jwe m = m_flat_jwe m'.
(** The same members with the same values, except for those named. *)
Definition differ_only (names : list string) (es es' : list (string * json)) : Prop :=
  Forall2 (fun a b => fst a = fst b /\ (snd a = snd b \/ In (fst a) names)) es es'.
(** The same environment, except for what encrypting [p] with associated data gives. *)
Definition same_but_for (E E' : env) (p : string) : Prop :=
  (forall k n a q, a = "" \/ q <> p -> xc_enc E' k n a q = xc_enc E k n a q) /\
  (forall k n a q, a = "" \/ q <> p -> gcm_enc E' k n a q = gcm_enc E k n a q) /\
  x_pub E' = x_pub E /\ x_dh E' = x_dh E /\ xc_dec E' = xc_dec E /\ gcm_dec E' = gcm_dec E /\ cbc_enc E' = cbc_enc E /\
  sig_sign E' = sig_sign E /\ sig_verify E' = sig_verify E /\ resolve E' = resolve E /\ fl E' = fl E /\ ho E' = ho E.
(** A cipher in counter mode with a tag of 16 bytes. *)
Definition same_size (enc : string -> string -> string -> string -> option string) : Prop :=
  forall k n a p c, enc k n a p = Some c -> String.length c = String.length p + 16.
