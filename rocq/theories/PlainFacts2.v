(** More about plain messages: what breaks the round trip, classification, re-sending. *)

From Coq Require Import Ascii String Arith NArith List Bool Permutation Sorted Lia.
From Verif Require Import Bytes BytesFacts Base64 Base64Facts Utf8 Utf8Facts Json JsonFacts Value ValueFacts Types Serde SerdeFacts
  Message Envelope Spec SpecFacts DecodeFacts PlainFacts BodyFacts CodecFacts.
Import ListNotations.
Local Open Scope string_scope.

(** ** Messages that no parser accepts *)

Lemma unreadable_receive : forall E m sk pk spk, rust_message m -> avoids envelope_names (dh_other (m_did m)) ->
  (forall R, message_from_str R (as_raw_json m) = None) -> receive E (as_raw_json m) sk pk spk = Err ESerde.
Proof.
  intros E m sk pk spk HR HA HN. unfold receive, get_message_type. destruct (raw_json_text m HR) as [HP _]. rewrite HP. cbn [oerr rbind].
  rewrite <- ser_message_entries, (unknown_plain m HA). cbn [oerr rbind un_iv un_signatures un_signature orb]. rewrite HN. reflexivity.
Qed.
Lemma member_got_In : forall es k j, member es k = Some (Got j) -> occ k es = [j].
Proof. intros es k j H. unfold member in H. destruct (occ k es) as [|a [|b l]]; try discriminate. congruence. Qed.
Lemma In_occ : forall es k j, In (k, j) es -> In j (occ k es).
Proof. intros es k j H. unfold occ. apply in_map_iff. exists (k, j). split; [reflexivity|]. apply filter_In. split; [exact H|]. apply String.eqb_refl. Qed.
Lemma occ_In : forall es k j, In j (occ k es) -> In (k, j) es.
Proof.
  intros es k j H. unfold occ in H. apply in_map_iff in H. destruct H as [[k' j'] [E H]]. cbn in E. subst j'. apply filter_In in H.
  destruct H as [H HK]. cbn in HK. apply String.eqb_eq in HK. now subst k'.
Qed.
Lemma deep_body_unreadable : forall m, rust_message m -> ~ nested 126 (m_body m) -> forall R, message_from_str R (as_raw_json m) = None.
Proof.
  intros m HR HD R. unfold message_from_str. destruct (raw_json_text m HR) as [HP _]. rewrite HP. cbn [obind de_message].
  destruct (dopt _ _); [|reflexivity]. cbn [obind]. destruct (dreq _ (member (message_entries m) "body")) as [b|] eqn:EB; [|reflexivity].
  exfalso. apply dreq_some in EB. destruct EB as [j [E1 E2]]. apply member_got_In in E1.
  destruct (message_known_entries m) as [_ [_ [HB _]]]. apply In_occ in HB. rewrite E1 in HB. destruct HB as [->|[]].
  apply value_of_some in E2. destruct E2 as [E2 _]. apply HD. apply nested_depth. exact E2.
Qed.

(** Members of a serialised message by name. *)
Lemma rest_of_In : forall names es k j, In (k, j) (rest_of names es) -> In (k, j) es.
Proof. intros names es k j H. unfold rest_of in H. apply filter_In in H. apply H. Qed.
Lemma empty_to_unreadable : forall m, rust_message m -> dh_to (m_did m) = [] -> forall R, message_from_str R (as_raw_json m) = None.
Proof.
  intros m HR HT R. destruct (message_from_str R (as_raw_json m)) as [m'|] eqn:EM; [|reflexivity]. exfalso.
  unfold message_from_str in EM. destruct (raw_json_text m HR) as [HP _]. rewrite HP in EM. cbn [obind de_message] in EM. obinv EM.
  destruct (forallb _ _); [|discriminate]. obinv EM. clear EM.
  match goal with H : de_didcomm _ _ = Some _ |- _ => rename H into ED end. unfold de_didcomm in ED. obinv ED. clear ED.
  match goal with H : dreq (de_vec de_string) _ = Some _ |- _ => rename H into ET end.
  apply dreq_some in ET. destruct ET as [j [X1 X2]]. apply member_got_In in X1.
  assert (HI : In ("to", j) (message_entries m)).
  { do 2 eapply rest_of_In. apply occ_In. rewrite X1. now left. }
  assert (HJ : exists v, j = JStr (needs_escape v) v).
  { unfold message_entries in HI. apply in_app_or in HI. destruct HI as [HI|HI].
    { exfalso. pose proof (keys_jwm_entries (m_jwm m)) as HK. rewrite Forall_forall in HK.
      assert (G : In "to" (keys (jwm_entries (m_jwm m)))) by (unfold keys; apply in_map_iff; now exists ("to", j)).
      apply HK in G. cbn in G. repeat (destruct G as [G|G]; [discriminate|]). exact G. }
    apply in_app_or in HI. destruct HI as [HI|HI].
    { unfold didcomm_entries in HI. rewrite HT in HI.
      repeat (apply in_app_or in HI; destruct HI as [HI|HI];
        [exfalso; repeat match type of HI with
          | In _ [_] => cbn in HI; destruct HI as [HI|[]]; discriminate
          | In _ (sopt ?k _ ?o) => destruct o; [cbn in HI; destruct HI as [HI|[]]; discriminate|destruct HI]
          | In _ (svec _ _ []) => destruct HI
          end|]).
      apply in_smap in HI. destruct HI as [w [_ HW]]. now exists w. }
    exfalso. apply in_app_or in HI. destruct HI as [HI|HI].
    { destruct (m_recipients m); [cbn in HI; destruct HI as [HI|[]]; discriminate|destruct HI]. }
    apply in_app_or in HI. destruct HI as [HI|HI].
    { cbn in HI. destruct HI as [HI|[]]. discriminate. }
    unfold svec in HI. destruct (m_attachments m); [destruct HI|]. cbn in HI. destruct HI as [HI|[]]. discriminate. }
  destruct HJ as [w ->]. discriminate.
Qed.

(** A name that a received message cannot have as custom header. *)
Lemma reserved_never_same : forall E m sk pk spk m' k, env_ok E -> rust_message m ->
  In k (map fst (dh_other (m_did m))) -> In k header_names -> receive E (as_raw_json m) sk pk spk = Ok m' -> ~ same_message m m'.
Proof.
  intros E m sk pk spk m' k HE HR HI HK HO HS. destruct (raw_json_text m HR) as [_ [HU _]].
  pose proof (receive_decoded E _ sk pk spk m' HE HU HO) as HD. destruct HS as [_ [HS _]].
  assert (HP : same_map (dh_other (m_did m)) (dh_other (m_did m'))) by (unfold same_did in HS; tauto).
  apply (dc_names _ HD k); [|exact HK]. eapply Permutation_in; [|exact HI]. apply Permutation_map. exact HP.
Qed.

(** ** Envelope names as custom headers *)

Lemma occ_custom : forall m k v, unique_keys (dh_other (m_did m)) -> ~ In k header_names -> In (k, v) (dh_other (m_did m)) ->
  member (message_entries m) k = Some (Got (JStr (needs_escape v) v)).
Proof.
  intros m k v HU HN HI. apply member_got.
  assert (HA : forall j, In j (occ k (message_entries m)) -> j = JStr (needs_escape v) v).
  { intros j Hj. apply occ_In in Hj. apply message_entry_kinds in Hj. destruct Hj as [Hj|[w [Hw ->]]]; [tauto|].
    assert (G : Some v = Some w). { rewrite <- (In_map_get _ _ _ _ HU HI). now apply In_map_get. } now injection G as <-. }
  assert (HL : List.length (occ k (message_entries m)) <= 1).
  { unfold message_entries. rewrite !occ_app. rewrite (occ_fresh k (jwm_entries _)), app_nil_l.
    2:{ intros G. pose proof (keys_jwm_entries (m_jwm m)) as HK. rewrite Forall_forall in HK. apply HK in G. apply HN.
        apply (proj1 header_names_incl). unfold msg_reserved. apply in_or_app. right. apply in_or_app. now left. }
    assert (HX : forall b, (occ k (sopt "recipients" b (m_recipients m)) ++ occ k [("body", m_body m)] ++ occ k (svec "attachments" ser_attachment (m_attachments m)))%list = []).
    { intros b. rewrite !occ_fresh; [reflexivity| | |].
      - intros G. pose proof (keys_svec _ "attachments" ser_attachment (m_attachments m)) as HK. rewrite Forall_forall in HK. apply HK in G. subst k. apply HN. cbn. tauto.
      - cbn. intros [<-|[]]. apply HN. cbn. tauto.
      - intros G. pose proof (keys_sopt _ "recipients" b (m_recipients m)) as HK. rewrite Forall_forall in HK. apply HK in G. subst k. apply HN. cbn. tauto. }
    rewrite HX, app_nil_r. unfold didcomm_entries. rewrite !app_assoc, occ_app.
    rewrite (occ_fresh k).
    2:{ intros G. assert (HI2 : In k (keys (didcomm_entries (dh_with_other (m_did m) [])))).
        { unfold didcomm_entries. rewrite !app_assoc, keys_app. apply in_or_app. now left. }
        pose proof (keys_didcomm_entries (dh_with_other (m_did m) [])) as HK2. rewrite Forall_forall in HK2. apply HK2 in HI2.
        destruct HI2 as [HI2|[]]. apply HN. apply (proj1 header_names_incl). unfold msg_reserved. apply in_or_app. right. apply in_or_app. now right. }
    cbn [app]. clear -HU. unfold unique_keys in HU. induction (dh_other (m_did m)) as [|[k' w] l IH]; [cbn; lia|].
    cbn in HU. inversion HU as [|? ? HN' HU']; subst. cbn [smap map fst snd]. rewrite occ_cons. destruct (String.eqb_spec k k') as [->|_]; [|auto].
    rewrite occ_smap; [cbn; lia|]. exact HN'. }
  pose proof (In_occ _ _ _ (proj2 (proj2 (proj2 (message_known_entries m))) k v HI)) as HO.
  destruct (occ k (message_entries m)) as [|a [|b l]]; [destruct HO| |cbn in HL; lia]. f_equal. apply HA. now left.
Qed.

Definition un_of (m : message) : unknown_message :=
  {| un_signature := smem "signature" (map fst (dh_other (m_did m))); un_signatures := smem "signatures" (map fst (dh_other (m_did m)));
     un_iv := smem "iv" (map fst (dh_other (m_did m))) |}.
Lemma present_custom : forall m k, unique_keys (dh_other (m_did m)) -> ~ In k header_names ->
  de_present (member (message_entries m) k) = Some (smem k (map fst (dh_other (m_did m)))).
Proof.
  intros m k HU HN. destruct (smem k (map fst (dh_other (m_did m)))) eqn:E.
  - apply smem_In in E. apply in_map_iff in E. destruct E as [[k' v] [Ek HI]]. cbn in Ek. subst k'.
    rewrite (occ_custom m k v HU HN HI). reflexivity.
  - apply smem_nIn in E. rewrite message_absent by assumption. reflexivity.
Qed.
Lemma unknown_message_flags : forall m, unique_keys (dh_other (m_did m)) -> de_unknown (ser_message m) = Some (un_of m).
Proof.
  intros m HU. rewrite ser_message_entries. unfold de_unknown. cbn [view obind].
  rewrite !present_custom; try assumption; [reflexivity| | |]; cbn; intros G; repeat (destruct G as [G|G]; [discriminate|]); exact G.
Qed.

(** Any text with a non-null [iv] goes to the decryption path. *)
Lemma iv_no_key : forall E m pk spk, rust_message m -> In "iv" (map fst (dh_other (m_did m))) ->
  receive E (as_raw_json m) None pk spk = Err (EGeneric "missing encryption recipient private key").
Proof.
  intros E m pk spk HR HI. unfold receive, get_message_type. destruct (raw_json_text m HR) as [HP _]. rewrite HP. cbn [oerr rbind].
  rewrite <- ser_message_entries, unknown_message_flags by apply HR. cbn [oerr rbind un_iv un_of].
  apply smem_In in HI. now rewrite HI.
Qed.
Lemma iv_key : forall E m sk pk spk, rust_message m -> In "iv" (map fst (dh_other (m_did m))) -> ~ In "ciphertext" (map fst (dh_other (m_did m))) ->
  receive E (as_raw_json m) (Some sk) pk spk = Err ESerde.
Proof.
  intros E m sk pk spk HR HI HC. unfold receive, get_message_type. destruct (raw_json_text m HR) as [HP _]. rewrite HP. cbn [oerr rbind].
  rewrite <- ser_message_entries, unknown_message_flags by apply HR. cbn [oerr rbind un_iv un_of].
  apply smem_In in HI. rewrite HI. cbn [rbind is_jwe_type]. unfold receive_jwe.
  assert (G : forall R, jwe_from_str R (as_raw_json m) = None); [|now rewrite G].
  intros R. unfold jwe_from_str. rewrite HP. cbn [obind de_jwe].
  rewrite (message_absent m "ciphertext"); [|cbn; intros G; repeat (destruct G as [G|G]; [discriminate|]); exact G|exact HC].
  destruct (de_protected R _); [|reflexivity]. cbn [obind]. destruct (dopt _ (member _ "unprotected")); [|reflexivity]. cbn [obind].
  destruct (dopt _ (member _ "recipients")); reflexivity.
Qed.
Lemma signature_no_alg : forall E m sk pk spk, sendable E m -> ~ In "iv" (map fst (dh_other (m_did m))) ->
  (In "signature" (map fst (dh_other (m_did m))) \/ In "signatures" (map fst (dh_other (m_did m)))) -> jh_alg (m_jwm m) = None ->
  receive E (as_raw_json m) sk pk spk = Err EJweParse.
Proof.
  intros E m sk pk spk HS HV HG HA. unfold receive. pose proof (sd_rust _ _ HS) as HR. destruct (raw_json_text m HR) as [HP _].
  assert (HT : forall k, get_message_type (rt E k) (as_raw_json m) = Ok DidCommJws).
  { intros k. unfold get_message_type. rewrite HP. cbn [oerr rbind].
    rewrite <- ser_message_entries, unknown_message_flags by apply HR. cbn [oerr rbind un_iv un_signature un_signatures un_of].
    apply smem_nIn in HV. rewrite HV. destruct HG as [HG|HG]; apply smem_In in HG; rewrite HG; [now rewrite orb_true_r|reflexivity]. }
  rewrite HT. cbn [rbind is_jwe_type]. rewrite HT. cbn [rbind is_jws_type]. unfold receive_jws, as_raw_json.
  rewrite (sendable_from_str E 5 m HS). cbn [m_jwm re_message]. cbn. now rewrite HA.
Qed.

Lemma signature_alg : forall E m sk pk spk alg, sendable E m -> ~ In "iv" (map fst (dh_other (m_did m))) ->
  (In "signature" (map fst (dh_other (m_did m))) \/ In "signatures" (map fst (dh_other (m_did m)))) -> jh_alg (m_jwm m) = Some alg ->
  receive E (as_raw_json m) sk pk spk =
    (let? key := signing_key spk (jh_kid (m_jwm m)) in let? v := verify E (rt E 6) (rt E 7) (get_body m) key in oerr (message_from_str (rt E 9) (message_json v)) ESerde).
Proof.
  intros E m sk pk spk alg HS HV HG HA. unfold receive. pose proof (sd_rust _ _ HS) as HR. destruct (raw_json_text m HR) as [HP _].
  assert (HT : forall k, get_message_type (rt E k) (as_raw_json m) = Ok DidCommJws).
  { intros k. unfold get_message_type. rewrite HP. cbn [oerr rbind].
    rewrite <- ser_message_entries, unknown_message_flags by apply HR. cbn [oerr rbind un_iv un_signature un_signatures un_of].
    apply smem_nIn in HV. rewrite HV. destruct HG as [HG|HG]; apply smem_In in HG; rewrite HG; [now rewrite orb_true_r|reflexivity]. }
  rewrite HT. cbn [rbind is_jwe_type]. rewrite HT. cbn [rbind is_jws_type]. unfold receive_jws, as_raw_json.
  rewrite (sendable_from_str E 5 m HS). cbn [m_jwm re_message re_jwm jh_alg jh_kid]. rewrite HA.
  change (get_body (re_message (rt E 5) m)) with (get_body m).
  destruct (signing_key spk (jh_kid (m_jwm m))) as [key| |]; cbn [rbind]; [|reflexivity|reflexivity].
  destruct (verify E (rt E 6) (rt E 7) (get_body m) key) as [v| |]; cbn [rbind]; reflexivity.
Qed.

(** ** Classification *)

Lemma classify_text : forall R text t, get_message_type R text = Ok t <->
  exists j u, parse text = Some j /\ de_unknown j = Some u /\
    ((un_iv u = true /\ t = DidCommJwe) \/
     (un_iv u = false /\ (un_signature u = true \/ un_signatures u = true) /\ t = DidCommJws) \/
     (un_iv u = false /\ un_signature u = false /\ un_signatures u = false /\ exists m, message_from_str R text = Some m /\ t = jh_typ (m_jwm m))).
Proof.
  intros R text t. unfold get_message_type. split.
  - intros H. destruct (parse text) as [j|]; [|discriminate]. cbn [oerr rbind] in H. destruct (de_unknown j) as [u|] eqn:EU; [|discriminate].
    cbn [oerr rbind] in H. exists j, u. split; [reflexivity|]. split; [exact EU|]. destruct (un_iv u); [left; now injection H as <-|]. right.
    destruct (un_signatures u), (un_signature u); cbn [orb] in H; try (left; injection H as <-; repeat split; tauto).
    right. destruct (message_from_str R text) as [m|]; [|discriminate]. cbn in H. injection H as <-. repeat split. now exists m.
  - intros [j [u [-> [EU H]]]]. cbn [oerr rbind]. rewrite EU. cbn [oerr rbind].
    destruct H as [[-> ->]|[[-> [H ->]]|[-> [-> [-> [m [-> ->]]]]]]]; [reflexivity| |reflexivity].
    destruct H as [H|H]; rewrite H; [now rewrite orb_true_r|reflexivity].
Qed.

(** A text that is not an object is never accepted. *)
Lemma receive_object : forall E text sk pk spk m, receive E text sk pk spk = Ok m -> exists es, parse text = Some (JObj es).
Proof.
  intros E text sk pk spk m H. unfold receive in H. rbinv H. apply oerr_ok in H.
  destruct (is_jwe_type v) eqn:J1.
  - rbinv E1. unfold receive_jwe in E1. rbinv E1. apply oerr_ok in E5. unfold jwe_from_str in E5. destruct (parse text) as [j|]; [|discriminate].
    cbn [obind] in E5. destruct j; try discriminate. eexists. reflexivity.
  - injection E1 as <-. destruct (is_jws_type v1).
    + unfold receive_jws in E3. destruct (message_from_str (rt E 5) text) as [m0|] eqn:EM.
      * unfold message_from_str in EM. destruct (parse text) as [j|]; [|discriminate]. cbn [obind] in EM. destruct j; try discriminate. eexists. reflexivity.
      * destruct (jws_from_str (rt E 8) text) as [w|] eqn:EW; [|discriminate]. unfold jws_from_str in EW. destruct (parse text) as [j|]; [|discriminate].
        cbn [obind] in EW. destruct j; try discriminate. eexists. reflexivity.
    + injection E3 as <-. unfold message_from_str in H. destruct (parse text) as [j|]; [|discriminate]. cbn [obind] in H. destruct j; try discriminate. eexists. reflexivity.
Qed.

(** ** Sending an accepted message again *)

Lemma resend : forall E text sk pk spk m sk' pk' spk', env_ok E -> rust_string text ->
  receive E text sk pk spk = Ok m -> jh_typ (m_jwm m) <> DidCommJwe -> jh_typ (m_jwm m) <> DidCommJws ->
  avoids envelope_names (dh_other (m_did m)) ->
  dh_to (m_did m) <> [] -> nested 126 (m_body m) -> stable (rt E 0) (m_body m) ->
  exists m', receive E (as_raw_json m) sk' pk' spk' = Ok m' /\ same_message m m' /\ flags_reset m'.
Proof.
  intros E text sk pk spk m sk' pk' spk' HE HU H N1 N2 HA HT HN HS. apply nested_depth in HN.
  pose proof (receive_decoded E text sk pk spk m HE HU H) as HD.
  exists (re_message (rt E 9) m). split; [|split; [now apply re_message_same|apply re_message_flags]].
  apply receive_plain; [now apply decoded_sendable|split; assumption|exact HA].
Qed.
Lemma plain_classified_free : forall E text m sk pk spk, env_ok E -> receive E text sk pk spk = Ok m ->
  (exists t, get_message_type (rt E 0) text = Ok t /\ t <> DidCommJwe /\ t <> DidCommJws) ->
  avoids envelope_names (dh_other (m_did m)) /\ jh_typ (m_jwm m) <> DidCommJwe /\ jh_typ (m_jwm m) <> DidCommJws.
Proof.
  intros E text m sk pk spk HE H [t [HT [N1 N2]]]. unfold receive in H. rewrite HT in H. cbn [rbind] in H.
  assert (J1 : is_jwe_type t = false) by (destruct t; congruence || reflexivity). rewrite J1 in H. cbn [rbind] in H.
  rbinv H. apply oerr_ok in H.
  assert (HV : v = t).
  { apply classify_text in HT, E0. destruct HT as [j [u [P1 [U1 C1]]]], E0 as [j' [u' [P2 [U2 C2]]]]. assert (j' = j) by congruence. subst j'.
    assert (u' = u) by congruence. subst u'.
    destruct C1 as [[C1 ->]|[[C1 [_ ->]]|[C1 [C1a [C1b [m1 [M1 ->]]]]]]]; [congruence|congruence|].
    destruct C2 as [[C2 _]|[[_ [[C2|C2] _]]|[_ [_ [_ [m2 [M2 ->]]]]]]]; try congruence. eapply message_typ_indep; eauto. }
  subst v. assert (J2 : is_jws_type t = false) by (destruct t; congruence || reflexivity). rewrite J2 in E1. injection E1 as <-.
  assert (HM : jh_typ (m_jwm m) = t).
  { destruct (get_message_type_typ E 9 0 text m t H HT N1 N2) as [m' [M' ->]]. eapply message_typ_indep; eauto. }
  split; [|rewrite HM; now split]. eapply plain_no_envelope_names; [apply (env_drt E 9 HE)|exact H|exact HT|exact N1|exact N2].
Qed.

(** ** Classification in terms of members *)

Lemma occ_split : forall es k x l, occ k es = x :: l -> exists a b, es = (a ++ (k, x) :: b)%list /\ occ k a = [] /\ occ k b = l.
Proof.
  induction es as [|[k' y] es IH]; intros k x l H; [discriminate|]. rewrite occ_cons in H. destruct (String.eqb_spec k k') as [->|N].
  - injection H as -> H. exists [], es. repeat split. exact H.
  - destruct (IH _ _ _ H) as [a [b [-> [HA HB]]]]. exists ((k', y) :: a), b. repeat split; [|exact HB].
    rewrite occ_cons. destruct (String.eqb_spec k k'); [contradiction|exact HA].
Qed.
Lemma at_most_once_occ : forall es k, at_most_once es k <-> member es k <> None.
Proof.
  intros es k. unfold member. split.
  - intros H. destruct (occ k es) as [|x [|y l]] eqn:EO; try discriminate. exfalso.
    destruct (occ_split _ _ _ _ EO) as [a [b [-> [HA HB]]]]. destruct (occ_split _ _ _ _ HB) as [b' [c [-> _]]].
    eapply H. reflexivity.
  - intros H a x b y c ->. apply H. rewrite occ_app, occ_cons, String.eqb_refl, occ_app, occ_cons, String.eqb_refl.
    destruct (occ k a) as [|p [|q l]]; cbn; try reflexivity; destruct (occ k b); reflexivity.
Qed.
Lemma present_has : forall es k b, de_present (member es k) = Some b <-> at_most_once es k /\ (has_member es k <-> b = true).
Proof.
  intros es k b. rewrite at_most_once_occ. unfold has_member. unfold member. destruct (occ k es) as [|x [|y l]] eqn:EO.
  - cbn. split.
    + intros H. injection H as <-. split; [discriminate|]. split; [|discriminate]. intros [j [HI _]]. apply In_occ in HI. rewrite EO in HI. destruct HI.
    + intros [_ H]. destruct b; [|reflexivity]. destruct (proj2 H eq_refl) as [j [HI _]]. apply In_occ in HI. rewrite EO in HI. destruct HI.
  - assert (HX : forall j, In (k, j) es -> j = x). { intros j HI. apply In_occ in HI. rewrite EO in HI. now destruct HI as [<-|[]]. }
    assert (HI : In (k, x) es). { apply occ_In. rewrite EO. now left. }
    assert (HP : de_present (Some (Got x)) = Some (match x with JNull => false | _ => true end)) by (destruct x; reflexivity).
    rewrite HP. split.
    + intros H. injection H as <-. split; [discriminate|]. split.
      * intros [j [Hj HN]]. apply HX in Hj. subst j. destruct x; congruence.
      * intros H. exists x. split; [exact HI|]. destruct x; discriminate.
    + intros [_ H]. destruct b.
      * destruct (proj2 H eq_refl) as [j [Hj HN]]. apply HX in Hj. subst j. destruct x; congruence.
      * destruct x; try (exfalso; assert (G : false = true) by (apply H; exists x; split; [exact HI|discriminate]); discriminate); try reflexivity;
        exfalso; match goal with H : (exists j, In (k, j) es /\ j <> JNull) <-> false = true |- _ =>
          assert (G : false = true) by (apply H; eexists; split; [exact HI|discriminate]); discriminate end.
  - cbn. split; [discriminate|]. intros [H _]. congruence.
Qed.
Lemma classify_members : forall R text es t, parse text = Some (JObj es) ->
  (get_message_type R text = Ok t <->
   at_most_once es "iv" /\ at_most_once es "signature" /\ at_most_once es "signatures" /\
   ((has_member es "iv" /\ t = DidCommJwe) \/
    (~ has_member es "iv" /\ (has_member es "signature" \/ has_member es "signatures") /\ t = DidCommJws) \/
    (~ has_member es "iv" /\ ~ has_member es "signature" /\ ~ has_member es "signatures" /\
     exists m, message_from_str R text = Some m /\ t = jh_typ (m_jwm m)))).
Proof.
  intros R text es t HP. rewrite classify_text. split.
  - intros [j [u [P1 [HU HC]]]]. assert (j = JObj es) by congruence. subst j. unfold de_unknown in HU. cbn [view obind] in HU. obinv HU.
    apply some_inj in HU. subst u. cbn [un_iv un_signature un_signatures] in HC. apply present_has in E, E0, E1.
    destruct E as [O1 B1], E0 as [O2 B2], E1 as [O3 B3]. repeat (split; [assumption|]).
    destruct v, v0, v1; intuition congruence.
  - intros [O3 [O1 [O2 HC]]].
    assert (G : forall k, at_most_once es k -> exists b, de_present (member es k) = Some b).
    { intros k Hk. apply at_most_once_occ in Hk. destruct (member es k) as [f|] eqn:EM; [|congruence]. unfold member in EM.
      destruct (occ k es) as [|x [|y l]]; try discriminate; injection EM as <-; [now exists false|]. unfold de_present. cbn. destruct x; eexists; reflexivity. }
    destruct (G _ O1) as [b1 E1], (G _ O2) as [b2 E2], (G _ O3) as [b3 E3].
    eexists (JObj es), _. split; [exact HP|]. split.
    { unfold de_unknown. cbn [view obind]. rewrite E1, E2, E3. reflexivity. }
    cbn [un_iv un_signature un_signatures]. apply present_has in E1, E2, E3. destruct E1 as [_ B1], E2 as [_ B2], E3 as [_ B3].
    destruct b1, b2, b3; intuition congruence.
Qed.

(** ** Dependence on keys *)

Lemma receive_signed_keys : forall E text sk pk spk t, get_message_type (rt E 0) text = Ok t -> t <> DidCommJwe ->
  receive E text sk pk spk = receive E text None None spk.
Proof.
  intros E text sk pk spk t HT HN. unfold receive. rewrite HT. cbn [rbind]. destruct t; try congruence; reflexivity.
Qed.
Lemma classify_stable : forall E text k k' t t', get_message_type (rt E k) text = Ok t -> get_message_type (rt E k') text = Ok t' -> t = t'.
Proof.
  intros E text k k' t t' H1 H2. apply classify_text in H1, H2. destruct H1 as [j [u [P1 [U1 C1]]]], H2 as [j' [u' [P2 [U2 C2]]]].
  assert (j' = j) by congruence. subst j'. assert (u' = u) by congruence. subst u'.
  destruct C1 as [[C1 ->]|[[C1 [C1a ->]]|[C1 [C1a [C1b [m1 [M1 ->]]]]]]];
    destruct C2 as [[C2 ->]|[[C2 [C2a ->]]|[C2 [C2a' [C2b [m2 [M2 ->]]]]]]]; try reflexivity; try congruence;
    try (destruct C1a as [C1a|C1a]; congruence); try (destruct C2a as [C2a|C2a]; congruence).
  eapply message_typ_indep; eauto.
Qed.
Lemma receive_plain_keys : forall E text sk pk spk t, get_message_type (rt E 0) text = Ok t -> t <> DidCommJwe -> t <> DidCommJws ->
  receive E text sk pk spk = receive E text None None None.
Proof.
  intros E text sk pk spk t HT N1 N2. unfold receive. rewrite HT. cbn [rbind].
  assert (J1 : is_jwe_type t = false) by (destruct t; congruence || reflexivity). rewrite J1. cbn [rbind].
  destruct (get_message_type (rt E 4) text) as [t'| |] eqn:H4; [|reflexivity|reflexivity]. cbn [rbind].
  rewrite (classify_stable _ _ _ _ _ _ H4 HT).
  assert (J2 : is_jws_type t = false) by (destruct t; congruence || reflexivity). rewrite J2. reflexivity.
Qed.
Lemma receive_not_jwe_np : forall E text sk pk spk, get_message_type (rt E 0) text <> Ok DidCommJwe -> receive E text sk pk spk <> Panic.
Proof.
  intros E text sk pk spk HN. destruct (get_message_type (rt E 0) text) as [t|e|] eqn:HT.
  - assert (N1 : t <> DidCommJwe) by congruence. rewrite (receive_signed_keys E text sk pk spk t HT N1). unfold receive. rewrite HT. cbn [rbind].
    assert (J1 : is_jwe_type t = false) by (destruct t; congruence || reflexivity). rewrite J1. cbn [rbind].
    apply rbind_no_panic; [apply get_message_type_np|]. intros b _.
    apply rbind_no_panic; [destruct (is_jws_type b); [apply receive_jws_np|discriminate]|]. intros; apply oerr_no_panic.
  - unfold receive. rewrite HT. discriminate.
  - exfalso. eapply get_message_type_np; eauto.
Qed.

(** ** Expiry *)

Lemma with_expires_sendable : forall E m clock e, sendable E m -> opt_all is_u64 clock -> opt_all is_u64 e -> sendable E (timed clock m e).
Proof.
  intros E m clock e [[R1 R2 R3 R4 R5 R6 R7 R8 R9 R10] S2 S3 S4 S5 S6 S7] HC HE. constructor; try assumption. constructor; assumption.
Qed.
