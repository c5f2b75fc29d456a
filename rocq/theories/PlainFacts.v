(** Plain messages: classification and the round trip through [receive]. *)

From Coq Require Import Ascii String Arith NArith List Bool Permutation Sorted Lia.
From Verif Require Import Bytes BytesFacts Base64 Base64Facts Utf8 Utf8Facts Json JsonFacts Value ValueFacts Types Serde SerdeFacts
  Message Envelope Spec SpecFacts DecodeFacts.
Import ListNotations.
Local Open Scope string_scope.

(** Splitting a chain of [let?]. *)
Ltac rbinv H :=
  repeat match type of H with
  | rbind ?e _ = Ok _ => let x := fresh "v" in let E := fresh "E" in destruct e as [x| |] eqn:E; cbn [rbind] in H; [|discriminate H|discriminate H]
  end.
Lemma oerr_ok : forall A (o : option A) e a, oerr o e = Ok a -> o = Some a.
Proof. intros A [x|] e a H; [now injection H as <- | discriminate]. Qed.

Definition message_entries (m : message) : list (string * json) :=
  (jwm_entries (m_jwm m) ++ didcomm_entries (m_did m)
   ++ sopt "recipients" (fun l => JArr (map ser_recipient l)) (m_recipients m)
   ++ [("body", m_body m)] ++ svec "attachments" ser_attachment (m_attachments m))%list.
Lemma ser_message_entries : forall m, ser_message m = JObj (message_entries m).
Proof. reflexivity. Qed.

Lemma message_keys : forall m k, In k (keys (message_entries m)) -> In k header_names \/ In k (map fst (dh_other (m_did m))).
Proof.
  intros m k H. unfold message_entries in H. rewrite !keys_app in H. repeat (apply in_app_or in H; destruct H as [H|H]).
  - left. pose proof (keys_jwm_entries (m_jwm m)) as HK. rewrite Forall_forall in HK. apply HK in H.
    apply (proj1 header_names_incl). unfold msg_reserved. apply in_or_app. right. apply in_or_app. now left.
  - pose proof (keys_didcomm_entries (m_did m)) as HK. rewrite Forall_forall in HK. apply HK in H.
    destruct H as [H|H]; [left|now right]. apply (proj1 header_names_incl). unfold msg_reserved. apply in_or_app. right.
    apply in_or_app. now right.
  - left. pose proof (keys_sopt _ "recipients" (fun l => JArr (map ser_recipient l)) (m_recipients m)) as HK.
    rewrite Forall_forall in HK. apply HK in H. subst k. cbn. tauto.
  - left. cbn in H. destruct H as [<-|[]]. cbn. tauto.
  - left. pose proof (keys_svec _ "attachments" ser_attachment (m_attachments m)) as HK.
    rewrite Forall_forall in HK. apply HK in H. subst k. cbn. tauto.
Qed.

Lemma message_absent : forall m k, ~ In k header_names -> ~ In k (map fst (dh_other (m_did m))) -> member (message_entries m) k = Some Absent.
Proof.
  intros m k H1 H2. apply member_absent. apply occ_fresh. intros H. apply message_keys in H. tauto.
Qed.
Lemma unknown_plain : forall m, avoids envelope_names (dh_other (m_did m)) ->
  de_unknown (ser_message m) = Some {| un_signature := false; un_signatures := false; un_iv := false |}.
Proof.
  intros m H. rewrite ser_message_entries. unfold de_unknown. cbn [view obind].
  assert (HA : forall k, In k envelope_names -> ~ In k header_names -> member (message_entries m) k = Some Absent).
  { intros k Hk Hn. apply message_absent; [exact Hn|]. intros G. apply (H k G Hk). }
  rewrite (HA "signature"), (HA "signatures"), (HA "iv"); cbn; try tauto; try reflexivity;
    intros G; repeat (destruct G as [G|G]; [discriminate|]); exact G.
Qed.
Lemma classify_message : forall E k m, sendable E m -> avoids envelope_names (dh_other (m_did m)) ->
  get_message_type (rt E k) (message_json m) = Ok (jh_typ (m_jwm m)).
Proof.
  intros E k m HS HA. unfold get_message_type. rewrite (sendable_parse E m HS). cbn [oerr rbind].
  rewrite (unknown_plain m HA). cbn [oerr rbind un_iv un_signatures un_signature orb].
  rewrite (sendable_from_str E k m HS). reflexivity.
Qed.

Definition plain_typ (m : message) : Prop := jh_typ (m_jwm m) <> DidCommJwe /\ jh_typ (m_jwm m) <> DidCommJws.
Lemma plain_typ_tests : forall m, plain_typ m -> is_jwe_type (jh_typ (m_jwm m)) = false /\ is_jws_type (jh_typ (m_jwm m)) = false.
Proof. intros m [H1 H2]. destruct (jh_typ (m_jwm m)); try congruence; split; reflexivity. Qed.

Lemma receive_plain : forall E m sk pk spk, sendable E m -> plain_typ m -> avoids envelope_names (dh_other (m_did m)) ->
  receive E (as_raw_json m) sk pk spk = Ok (re_message (rt E 9) m).
Proof.
  intros E m sk pk spk HS HT HA. unfold receive, as_raw_json. rewrite (classify_message E 0 m HS HA). cbn [rbind].
  destruct (plain_typ_tests m HT) as [-> H2]. cbn [rbind]. rewrite (classify_message E 4 m HS HA). cbn [rbind]. rewrite H2. cbn [rbind].
  rewrite (sendable_from_str E 9 m HS). reflexivity.
Qed.

(** What is received through the plain path. *)
Lemma receive_cases : forall E text sk pk spk m, receive E text sk pk spk = Ok m ->
  exists t, message_from_str (rt E 9) t = Some m /\
    (t = text \/ (exists k, receive_jwe E text k pk = Ok t) \/
     (exists t0, receive_jws E t0 spk = Ok t /\ (t0 = text \/ exists k, receive_jwe E text k pk = Ok t0))).
Proof.
  intros E text sk pk spk m H. unfold receive in H. rbinv H. apply oerr_ok in H.
  destruct (is_jws_type v1) eqn:J2.
  - exists v2. split; [exact H|]. right. right. exists v0. split; [exact E3|].
    destruct (is_jwe_type v); [|injection E1 as <-; now left]. rbinv E1. right. now exists v3.
  - injection E3 as <-. exists v0. split; [exact H|].
    destruct (is_jwe_type v); [|injection E1 as <-; now left]. rbinv E1. right. left. now exists v2.
Qed.

Lemma message_json_utf8 : forall m, decoded m -> utf8_valid (message_json m) = true.
Proof.
  intros m H. apply print_utf8.
  - apply wf_ser_message. apply rust_value_wf. apply (rm_body _ (dc_rust _ H)).
  - apply utf8_ser_message. apply (rm_strings _ (dc_rust _ H)).
Qed.
Lemma decrypt_decoded : forall R1 R2 t d k m, drt_ok R2 -> decrypt R1 R2 t d k = Ok m -> decoded m.
Proof.
  intros R1 R2 t d k m HR H. unfold decrypt in H. rbinv H. destruct (d _ _ _ _); try discriminate. apply oerr_ok in H.
  eapply message_from_slice_decoded; eauto.
Qed.
Lemma verify_decoded : forall E R1 R2 t k m, drt_ok R2 -> verify E R1 R2 t k = Ok m -> decoded m.
Proof.
  intros E R1 R2 t k m HR H. unfold verify in H. rbinv H. destruct v1; [|discriminate]. rbinv H. apply oerr_ok in H.
  eapply message_from_slice_decoded; eauto.
Qed.
Lemma receive_jwe_json : forall E t k pk t', env_ok E -> receive_jwe E t k pk = Ok t' -> exists m, t' = message_json m /\ decoded m.
Proof.
  intros E t k pk t' HE H. unfold receive_jwe in H. rbinv H. injection H as <-. exists v5. split; [reflexivity|].
  destruct (jwe_recipients v); [rbinv E6|]; eapply decrypt_decoded; eauto; apply env_drt; exact HE.
Qed.
Lemma verify_entries_decoded : forall E l i t g m, env_ok E -> verify_entries E i t g l = Ok (Some m) -> decoded m.
Proof.
  intros E. induction l as [|s l IH]; intros i t g m HE H; [discriminate|]. cbn [verify_entries] in H.
  destruct (sig_get s jh_alg); [|eapply IH; eauto]. rbinv H.
  destruct (verify _ _ _ _ _) eqn:EV; [|eapply IH; eauto|discriminate]. injection H as <-.
  eapply verify_decoded; [|exact EV]. apply env_drt; exact HE.
Qed.
Lemma receive_jws_json : forall E t g t', env_ok E -> receive_jws E t g = Ok t' -> exists m, t' = message_json m /\ decoded m.
Proof.
  intros E t g t' HE H. unfold receive_jws in H. destruct (message_from_str _ t).
  - destruct (jh_alg _); [|discriminate]. rbinv H. injection H as <-. eexists. split; [reflexivity|].
    eapply verify_decoded; [|eassumption]. apply env_drt; exact HE.
  - destruct (jws_from_str _ t); [|discriminate]. rbinv H. apply oerr_ok in E2. subst. injection H as <-.
    eexists. split; [reflexivity|]. eapply verify_entries_decoded; eauto.
Qed.
(** Everything [receive] returns is well-formed. *)
Lemma receive_decoded : forall E text sk pk spk m, env_ok E -> utf8_valid text = true -> receive E text sk pk spk = Ok m -> decoded m.
Proof.
  intros E text sk pk spk m HE HU H. apply receive_cases in H. destruct H as [t [H HC]].
  assert (G : utf8_valid t = true).
  { destruct HC as [->|[[k HC]|[t0 [HC _]]]]; [exact HU| |].
    - destruct (receive_jwe_json _ _ _ _ _ HE HC) as [m' [-> D]]. apply message_json_utf8. exact D.
    - destruct (receive_jws_json _ _ _ _ HE HC) as [m' [-> D]]. apply message_json_utf8. exact D. }
  eapply message_from_str_decoded; eauto. apply env_drt. exact HE.
Qed.

(** A text accepted by the classifier as plain has no envelope members. *)
Lemma present_false : forall x, de_present x = Some false -> x = Some Absent \/ x = Some (Got JNull).
Proof.
  intros [[| |j]|] H; try discriminate; [now left|]. right. unfold de_present in H. cbn in H.
  destruct j; try discriminate; reflexivity.
Qed.
Lemma de_message_obj : forall R j m, de_message R j = Some m -> exists es, j = JObj es.
Proof. intros R j m H. destruct j; try discriminate. eexists. reflexivity. Qed.
Lemma plain_no_envelope_names : forall R R' text m t, drt_ok R -> message_from_str R text = Some m ->
  get_message_type R' text = Ok t -> t <> DidCommJwe -> t <> DidCommJws -> avoids envelope_names (dh_other (m_did m)).
Proof.
  intros R R' text m t HR HM HT N1 N2. unfold message_from_str in HM. unfold get_message_type in HT.
  destruct (parse text) as [j|] eqn:EP; [|discriminate]. cbn [obind oerr rbind] in *.
  destruct (de_message_obj _ _ _ HM) as [es ->].
  destruct (de_unknown (JObj es)) as [u|] eqn:EU; [|discriminate]. cbn [oerr rbind] in HT.
  unfold de_unknown in EU. cbn [view obind] in EU. obinv EU. apply some_inj in EU. subst u. cbn [un_iv un_signatures un_signature] in HT.
  destruct v1; [injection HT as <-; congruence|]. destruct v0; [cbn in HT; injection HT as <-; congruence|].
  destruct v; [cbn in HT; injection HT as <-; congruence|].
  cbn [de_message] in HM. obinv HM. destruct (forallb _ _); [|discriminate]. obinv HM. apply some_inj in HM. subst m. cbn [m_did].
  unfold de_didcomm in E6. obinv E6. apply some_inj in E6. subst v3. cbn [dh_other].
  intros k Hk HI. apply in_map_iff in Hk. destruct Hk as [[k' s] [Ek Hk]]. cbn in Ek. subst k'.
  destruct (de_map_In _ _ _ _ _ _ _ HR E17 Hk) as [y [Y1 Y2]].
  assert (Y3 : In (k, y) es).
  { apply filter_In in Y1. destruct Y1 as [Y1 _]. apply filter_In in Y1. destruct Y1 as [Y1 _]. apply filter_In in Y1. apply Y1. }
  assert (HP : de_present (member es k) = Some false).
  { destruct HI as [<-|[<-|[<-|[]]]]; assumption. }
  apply present_false in HP. destruct HP as [HP|HP].
  - unfold member in HP. destruct (occ k es) as [|a [|b l]] eqn:EO; try discriminate.
    apply occ_absent in EO. apply EO. unfold keys. apply in_map_iff. now exists (k, y).
  - unfold member in HP. destruct (occ k es) as [|a [|b l]] eqn:EO; try discriminate. injection HP as ->.
    assert (G : In y (occ k es)).
    { unfold occ. apply in_map_iff. exists (k, y). split; [reflexivity|]. apply filter_In. split; [exact Y3|]. apply String.eqb_refl. }
    rewrite EO in G. destruct G as [<-|[]]. discriminate.
Qed.
Lemma get_message_type_typ : forall E k k' text m t, message_from_str (rt E k) text = Some m ->
  get_message_type (rt E k') text = Ok t -> t <> DidCommJwe -> t <> DidCommJws ->
  exists m', message_from_str (rt E k') text = Some m' /\ t = jh_typ (m_jwm m').
Proof.
  intros E k k' text m t HM HT N1 N2. unfold get_message_type in HT. rbinv HT.
  destruct (un_iv v0); [injection HT as <-; congruence|].
  destruct (un_signatures v0 || un_signature v0)%bool; [injection HT as <-; congruence|]. rbinv HT.
  apply oerr_ok in E2. exists v1. split; [exact E2|]. now injection HT as <-.
Qed.

(** The member [typ] decides whatever the map orders. *)
Lemma de_jwm_from_typ : forall {bf} R R' g h h', de_jwm_from R bf g = Some h -> de_jwm_from R' bf g = Some h' -> jh_typ h = jh_typ h'.
Proof.
  intros bf R R' g h h' H H'. unfold de_jwm_from in *. obinv H. obinv H'. apply some_inj in H, H'. subst. cbn. congruence.
Qed.
Lemma message_typ_indep : forall R R' text m m', message_from_str R text = Some m -> message_from_str R' text = Some m' ->
  jh_typ (m_jwm m) = jh_typ (m_jwm m').
Proof.
  intros R R' text m m' H H'. unfold message_from_str in *. destruct (parse text) as [j|]; [|discriminate]. cbn [obind] in *.
  destruct (de_message_obj _ _ _ H) as [es ->]. cbn [de_message] in *. obinv H. obinv H'.
  destruct (forallb _ _); [|discriminate]. destruct (forallb _ _); [|discriminate]. obinv H. obinv H'.
  apply some_inj in H, H'. subst. cbn. eapply de_jwm_from_typ; eauto.
Qed.

(** ** No panics *)

Lemma oerr_no_panic : forall A (o : option A) e, oerr o e <> Panic.
Proof. intros A [a|] e; discriminate. Qed.
Lemma rbind_no_panic : forall A B (x : res A) (f : A -> res B), x <> Panic -> (forall a, x = Ok a -> f a <> Panic) -> rbind x f <> Panic.
Proof. intros A B [a|e|] f H1 H2; cbn; [now apply H2 | discriminate | congruence]. Qed.
Ltac np := repeat first
  [ apply oerr_no_panic
  | discriminate
  | apply rbind_no_panic; [|intros ? _]
  | match goal with |- (if ?b then _ else _) <> Panic => destruct b end
  | match goal with |- match ?x with Some _ => _ | None => _ end <> Panic => destruct x end ].

Lemma sig_alg_of_np : forall s, sig_alg_of s <> Panic.
Proof. intros. unfold sig_alg_of. np. Qed.
Lemma crypto_alg_of_np : forall s, crypto_alg_of s <> Panic.
Proof. intros. unfold crypto_alg_of. np. Qed.
Lemma jws_entries_np : forall w, jws_entries w <> Panic.
Proof. intros. unfold jws_entries. np. Qed.
Lemma check_entry_np : forall E p k s, check_entry E p k s <> Panic.
Proof. intros. unfold check_entry, validator. np. apply sig_alg_of_np. Qed.
Lemma check_entries_np : forall E p k l, check_entries E p k l <> Panic.
Proof. intros E p k l. induction l; cbn [check_entries]; [discriminate|]. apply rbind_no_panic; [apply check_entry_np|]. intros [] _; [discriminate|assumption]. Qed.
Lemma verify_np : forall E R1 R2 t k, verify E R1 R2 t k <> Panic.
Proof. intros. unfold verify. np. apply jws_entries_np. apply check_entries_np. Qed.
Lemma signing_key_np : forall g k, signing_key g k <> Panic.
Proof. intros [g|] [k|]; unfold signing_key; np. Qed.
Lemma verify_entries_np : forall E l i t g, verify_entries E i t g l <> Panic.
Proof.
  intros E. induction l as [|s l IH]; intros i t g; cbn [verify_entries]; [discriminate|].
  destruct (sig_get s jh_alg); [|apply IH]. apply rbind_no_panic; [apply signing_key_np|]. intros k _.
  destruct (verify _ _ _ _ _) eqn:EV; [discriminate|apply IH|]. exfalso. eapply verify_np; eauto.
Qed.
Lemma receive_jws_np : forall E t g, receive_jws E t g <> Panic.
Proof.
  intros. unfold receive_jws. destruct (message_from_str _ _).
  - destruct (jh_alg _); [|discriminate]. apply rbind_no_panic; [apply signing_key_np|]. intros k _.
    apply rbind_no_panic; [apply verify_np|]. discriminate.
  - destruct (jws_from_str _ _); [|discriminate]. apply rbind_no_panic; [apply jws_entries_np|]. intros l _.
    apply rbind_no_panic; [apply verify_entries_np|]. intros o _. apply rbind_no_panic; [apply oerr_no_panic|]. discriminate.
Qed.
Lemma get_message_type_np : forall R t, get_message_type R t <> Panic.
Proof. intros. unfold get_message_type. np. Qed.
Lemma receive_no_key_np : forall E t pk spk, receive E t None pk spk <> Panic.
Proof.
  intros. unfold receive. apply rbind_no_panic; [apply get_message_type_np|]. intros a _.
  apply rbind_no_panic; [destruct (is_jwe_type a); discriminate|]. intros t' _.
  apply rbind_no_panic; [apply get_message_type_np|]. intros b _.
  apply rbind_no_panic; [destruct (is_jws_type b); [apply receive_jws_np|discriminate]|]. intros; apply oerr_no_panic.
Qed.
