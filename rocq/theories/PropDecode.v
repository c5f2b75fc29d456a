(** Property C56: which texts are read as messages and envelopes, and as what. *)

From Coq Require Import Ascii String Arith NArith List Bool Permutation Lia.
From Verif Require Import Bytes BytesFacts Base64 Utf8 Json JsonFacts SpecJson GrammarFacts Value ValueFacts Types Serde Message Envelope
  Spec SpecFacts SpecText SpecDecode CryptoLaws Examples BodyFacts PlainFacts PlainFacts2 ReadFacts ReadFacts2 ReadFacts3.
Import ListNotations.
Local Open Scope string_scope.

(** ** C56 *)

Theorem C56_message_sound : forall E k text m, env_ok E -> message_from_str (rt E k) text = Some m ->
  exists j, document text j /\ message_text (rt E k) j m.
Proof. intros E k text m HE. apply (text_reads _ _ _ same_message (fun j Hw => message_reads (rt E k) j (env_drt E k HE) Hw)). Qed.
Theorem C56_message_complete : forall E k text j m, env_ok E -> document text j -> message_text (rt E k) j m ->
  exists m', message_from_str (rt E k) text = Some m' /\ same_message m m'.
Proof.
  intros E k text j m HE HD HM. apply (text_reads _ _ _ same_message (fun j Hw => message_reads (rt E k) j (env_drt E k HE) Hw)). now exists j.
Qed.
Theorem C56_jws_sound : forall E k text w, env_ok E -> jws_from_str (rt E k) text = Some w -> exists j, document text j /\ jws_text (rt E k) j w.
Proof. intros E k text m HE. apply (text_reads _ _ _ same_jws (fun j Hw => jws_reads (rt E k) j (env_drt E k HE) Hw)). Qed.
Theorem C56_jws_complete : forall E k text j w, env_ok E -> document text j -> jws_text (rt E k) j w ->
  exists w', jws_from_str (rt E k) text = Some w' /\ same_jws w w'.
Proof. intros E k text j m HE HD HM. apply (text_reads _ _ _ same_jws (fun j Hw => jws_reads (rt E k) j (env_drt E k HE) Hw)). now exists j. Qed.
Theorem C56_jwe_sound : forall E k text e, env_ok E -> jwe_from_str (rt E k) text = Some e -> exists j, document text j /\ jwe_text (rt E k) j e.
Proof. intros E k text m HE. apply (text_reads _ _ _ same_jwe (fun j Hw => jwe_reads (rt E k) j (env_drt E k HE) Hw)). Qed.
Theorem C56_jwe_complete : forall E k text j e, env_ok E -> document text j -> jwe_text (rt E k) j e ->
  exists e', jwe_from_str (rt E k) text = Some e' /\ same_jwe e e'.
Proof. intros E k text j m HE HD HM. apply (text_reads _ _ _ same_jwe (fun j Hw => jwe_reads (rt E k) j (env_drt E k HE) Hw)). now exists j. Qed.
(** Byte sequences are read when they are UTF-8. *)
Theorem C56_slices : forall R s, (forall m, message_from_slice R s = Some m <-> utf8_text s /\ message_from_str R s = Some m) /\
  (forall w, jws_from_slice R s = Some w <-> utf8_text s /\ jws_from_str R s = Some w) /\
  (forall e, jwe_from_slice R s = Some e <-> utf8_text s /\ jwe_from_str R s = Some e).
Proof.
  intros R s. pose proof (utf8_iff s) as HU. unfold message_from_slice, jws_from_slice, jwe_from_slice, parse_slice.
  destruct (utf8_valid s); cbn [obind]; split; [|split| |split]; intros x; (split; [intros H|intros [G H]]); try discriminate H; try exact H;
    try (split; [now apply HU|exact H]); apply HU in G; discriminate G.
Qed.
(** The parts without maps are read exactly. *)
Theorem C56_parts : (forall j p, de_prior j = Some p <-> claims_text j p) /\ (forall j e, de_epk j = Some e <-> epk_text j e) /\
  (forall j a, de_attachment j = Some a <-> attachment_text j a) /\ (forall j m, de_mediated j = Some m <-> mediated_text j m).
Proof.
  split; [|split; [|split]]; intros j x; [apply (reader_exact _ _ _ claims_reader)|apply (reader_exact _ _ _ epk_reader)
    |apply (reader_exact _ _ _ attachment_reader)|apply (reader_exact _ _ _ mediated_reader)].
Qed.
(** Names from a fixed list. *)
Theorem C56_variants : forall bf, (forall j t, de_message_type bf j = Some t <-> variant bf message_type_table j t) /\
  (forall j o, de_key_ops bf j = Some o <-> variant bf key_ops_table j o) /\ (forall j a, de_key_algorithm bf j = Some a <-> variant bf key_algorithm_table j a).
Proof.
  intros bf. split; [|split]; intros j x; [apply (reader_exact _ _ _ message_type_reader)|apply (reader_exact _ _ _ key_ops_reader)|apply (reader_exact _ _ _ key_algorithm_reader)].
Qed.
(** The second notation: with {} in the header of a message, only with null in the unprotected header of an envelope. *)
Definition odd_type (x : json) : json := JObj [("application/didcomm-plain+json", x)].
Example C56_example_variant :
  option_map (fun m => jh_typ (m_jwm m)) (message_from_str (rt toy 0)
    "{""typ"":{""application/didcomm-plain+json"":{}},""id"":"""",""type"":"""",""to"":[],""body"":0}") = Some DidCommRaw /\
  de_jwm (rt toy 0) false (JObj [("typ", odd_type (JObj []))]) = None /\
  option_map jh_typ (de_jwm (rt toy 0) false (JObj [("typ", odd_type JNull)])) = Some DidCommRaw.
Proof. split; [vm_compute; reflexivity|]. split; vm_compute; reflexivity. Qed.

(** Seen from [receive]: what is returned for a text that is not an envelope, and which texts are accepted. *)
Lemma rt_numbers : forall E k k' t t', num_reads (rt E k) t t' -> num_reads (rt E k') t t'.
Proof. intros E k k' t t' [H|? H1 H2]; [now constructor|]. apply nr_float; assumption. Qed.
Theorem C56_plain_received : forall E text sk pk spk m t, env_ok E -> get_message_type (rt E 0) text = Ok t -> t <> DidCommJwe -> t <> DidCommJws ->
  receive E text sk pk spk = Ok m -> exists j, document text j /\ message_text (rt E 0) j m.
Proof.
  intros E text sk pk spk m t HE HT N1 N2 H. unfold receive in H. rewrite HT in H. cbn [rbind] in H.
  assert (J1 : is_jwe_type t = false) by (destruct t; congruence || reflexivity). rewrite J1 in H. cbn [rbind] in H.
  destruct (get_message_type (rt E 4) text) as [t'| |] eqn:ET; cbn [rbind] in H; try discriminate.
  assert (t' = t) by (eapply classify_stable; eauto). subst t'.
  assert (J2 : is_jws_type t = false) by (destruct t; congruence || reflexivity). rewrite J2 in H. cbn [rbind] in H.
  destruct (message_from_str (rt E 9) text) as [m9|] eqn:EM; [|discriminate]. cbn [oerr] in H. assert (m9 = m) by congruence. subst m9.
  apply C56_message_sound in EM; [|exact HE]. destruct EM as [j [HD HM]]. exists j. split; [exact HD|].
  eapply message_text_ext; [apply rt_numbers|exact HM].
Qed.
Theorem C56_plain_accepted : forall E text es m sk pk spk, env_ok E -> document text (JObj es) -> message_text (rt E 0) (JObj es) m ->
  (forall k, In k ["iv"; "signature"; "signatures"] -> at_most_once es k /\ ~ has_member es k) ->
  jh_typ (m_jwm m) <> DidCommJwe -> jh_typ (m_jwm m) <> DidCommJws ->
  exists m', receive E text sk pk spk = Ok m' /\ same_message m m'.
Proof.
  intros E text es m sk pk spk HE HD HM HN N1 N2.
  assert (G : forall k, exists m', message_from_str (rt E k) text = Some m' /\ same_message m m').
  { intros k. eapply C56_message_complete; [exact HE|exact HD|]. eapply message_text_ext; [apply rt_numbers|exact HM]. }
  assert (T : forall k, get_message_type (rt E k) text = Ok (jh_typ (m_jwm m))).
  { intros k. apply (classify_members (rt E k) text es); [now apply document_iff|]. destruct (HN "iv") as [A1 A2]; [now left|].
    destruct (HN "signature") as [B1 B2]; [right; now left|]. destruct (HN "signatures") as [C1 C2]; [right; right; now left|].
    repeat (split; [assumption|]). right. right. repeat (split; [assumption|]). destruct (G k) as [mk [E1 S1]]. exists mk. split; [exact E1|]. apply S1. }
  unfold receive. rewrite T. cbn [rbind]. assert (J1 : is_jwe_type (jh_typ (m_jwm m)) = false) by (destruct (jh_typ (m_jwm m)); congruence || reflexivity).
  rewrite J1. cbn [rbind]. rewrite T. cbn [rbind]. assert (J2 : is_jws_type (jh_typ (m_jwm m)) = false) by (destruct (jh_typ (m_jwm m)); congruence || reflexivity).
  rewrite J2. cbn [rbind]. destruct (G 9) as [m9 [E9 S9]]. exists m9. rewrite E9. now split.
Qed.

(** A message text with members in another order than written by this library, an escaped name, an unknown member, a float,
    and [from_prior] in array form. *)
Definition ex_text : string :=
  "{ ""body"" : {""b"":1, ""a"":[0.5], ""b"":2}, ""typ"":{""application/didcomm-plain+json"":null}, ""extra"":""x"", " ++
  """from_prior"":[null,""did:iss""], ""to"":[], ""type"":""t"", ""i\u0064"":""1"", ""created_time"":7 }".
Example C56_example_text : exists m, message_from_str (rt toy 0) ex_text = Some m /\ m_body m = JObj [("a", JArr [JNum "0.5"]); ("b", JNum "2")] /\
  dh_from_prior (m_did m) = Some {| pc_sub := None; pc_iss := "did:iss" |} /\ dh_other (m_did m) = [("extra", "x")] /\ dh_created (m_did m) = Some 7%N.
Proof. eexists. split; [vm_compute; reflexivity|]. repeat split; vm_compute; reflexivity. Qed.
Example C56_example : exists m j, receive toy ex_text None None None = Ok m /\ document ex_text j /\ message_text (rt toy 0) j m.
Proof.
  destruct C56_example_text as [m0 [H0 _]]. assert (HR : exists m, receive toy ex_text None None None = Ok m) by (eexists; vm_compute; reflexivity).
  destruct HR as [m Hm]. destruct (C56_plain_received toy ex_text None None None m DidCommRaw toy_env) as [j Hj]; [vm_compute; reflexivity|discriminate|discriminate|exact Hm|].
  now exists m, j.
Qed.
(** Signed envelopes: an entry in array form; an escape in a signature is refused, in a flattened entry silently so. *)
Example C56_example_jws :
  jws_from_str (rt toy 0) "{""payload"":""cA"",""signatures"":[[null,null,""AQ""]]}" =
    Some {| js_payload := "cA"; js_signature := Some {| sg_protected := None; sg_header := None; sg_signature := "" |};
            js_signatures := Some [{| sg_protected := None; sg_header := None; sg_signature := String (chr 1) "" |}] |} /\
  jws_from_str (rt toy 0) "{""payload"":""cA"",""signatures"":[{""signature"":""\u0041Q""}]}" = None /\
  jws_from_str (rt toy 0) "{""payload"":""cA"",""signature"":""\u0041Q""}" =
    Some {| js_payload := "cA"; js_signature := None; js_signatures := None |}.
Proof. repeat split; vm_compute; reflexivity. Qed.

Print Assumptions C56_message_sound.
Print Assumptions C56_message_complete.
Print Assumptions C56_jws_sound.
Print Assumptions C56_jws_complete.
Print Assumptions C56_jwe_sound.
Print Assumptions C56_jwe_complete.
Print Assumptions C56_slices.
Print Assumptions C56_parts.
Print Assumptions C56_variants.
Print Assumptions C56_plain_received.
Print Assumptions C56_plain_accepted.
