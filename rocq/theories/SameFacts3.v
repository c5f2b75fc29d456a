(** Lemmas for C66 and C67: equal messages, envelopes without embedded keys, and which parts of an encrypted envelope depend on
    the message inside. *)

From Coq Require Import Ascii String Arith NArith List Bool Permutation Lia.
From Verif Require Import Bytes BytesFacts Base64 Base64Facts Utf8 Json JsonFacts SpecJson GrammarFacts Value ValueFacts Types Serde SerdeFacts Message ChaCha Attach Envelope Spec SpecFacts
  SpecText SpecSign SpecSeal SpecKey SpecDecode SpecEnv CryptoLaws DecodeFacts CodecFacts BodyFacts PlainFacts PlainFacts2 HeaderFacts SignFacts SignFacts2 SealFacts SealFacts2 SealFacts3
  KeyFacts SetterFacts ReadFacts ReadFacts2 ReadFacts3 OrderFacts OrderFacts2 SameFacts SameFacts2.
Import ListNotations.
Local Open Scope string_scope.

(** ** Equal messages *)

Lemma sendable_tidy : forall E m, sendable E m -> tidy m.
Proof.
  assert (G : forall o, opt_all rust_jwk o -> opt_all jwk_plain o -> opt_all good_key o) by (intros [k|] A B; cbn in *; [now split|exact I]).
  intros E m [[M1 M2 M3 M4 M5 M6 M7 M8 M9 M10] D1 D2 [D3 D3'] D4 D5 D6]. constructor; auto.
  - destruct (dh_thread (m_did m)) as [t|]; cbn in *; [|exact I]. destruct M7 as [_ M7]. destruct (th_received_orders t); cbn in *; [apply M7|exact I].
  - destruct (m_recipients m) as [l|]; cbn in *; [|exact I]. clear - M8 D4. induction l; [constructor|]. inversion M8; inversion D4; subst. constructor; [now split|auto].
Qed.
Lemma same_written : forall E m m', sendable E m -> sendable E m' -> same_message m m' ->
  exists j j', document (as_raw_json m) j /\ document (as_raw_json m') j' /\ reordered j j'.
Proof.
  intros E m m' S S' H. exists (JObj (message_entries m)), (JObj (message_entries m')). split; [|split].
  - apply document_iff. apply raw_json_text. apply S.
  - apply document_iff. apply raw_json_text. apply S'.
  - apply message_doc_ro; [now apply (sendable_tidy E)|exact H].
Qed.
Lemma same_received : forall E m m' sk pk spk, env_ok E -> sendable E m -> sendable E m' -> same_message m m' ->
  same_result same_message (receive E (as_raw_json m) sk pk spk) (receive E (as_raw_json m') sk pk spk).
Proof.
  intros E m m' sk pk spk HE S S' H. destruct (raw_json_text m (sd_rust _ _ S)) as [P [U _]], (raw_json_text m' (sd_rust _ _ S')) as [P' [U' _]].
  apply (receive_ro E _ _ _ _ sk pk spk HE P P' U U'); [apply message_bodies|apply message_doc_ro]; try exact H; now apply (sendable_tidy E).
Qed.

(** ** Sending does not depend on iteration orders *)

Lemma vof_fnorm : forall R R' j, num_wf j -> fnorm R = fnorm R' -> vof R j = vof R' j.
Proof.
  assert (G : forall R R' j v, num_wf j -> fnorm R = fnorm R' -> vof R j = Some v -> vof R' j = Some v).
  { intros R R' j v Hw HF H. apply vof_iff in H; [|exact Hw]. apply vof_iff; [exact Hw|]. eapply reads_ext; [|exact H]. now apply numbers_same. }
  intros R R' j Hw HF. destruct (vof R j) as [v|] eqn:E1.
  - symmetry. now apply (G R R').
  - destruct (vof R' j) as [v|] eqn:E2; [|reflexivity]. apply (G R' R) in E2; [congruence|exact Hw|now symmetry].
Qed.
Lemma set_body_fnorm : forall R R' m t, fnorm R = fnorm R' -> set_body R m t = set_body R' m t.
Proof.
  intros R R' m t HF. unfold set_body. destruct (parse t) as [j|] eqn:EP; [|reflexivity]. cbn [oerr rbind]. unfold value_of.
  rewrite (vof_fnorm R R' j); [reflexivity|eapply parse_num_wf; eauto|exact HF].
Qed.
Lemma seal_loop_reorder : forall E o rnd m sk i ds ps, seal_loop (reorder E o) rnd m sk i ds ps = seal_loop E rnd m sk i ds ps.
Proof.
  intros E o rnd m sk i ds. revert i. induction ds as [|d ds IH]; intros i [|p ps]; [reflexivity|reflexivity|reflexivity|]. cbn [seal_loop].
  change (encrypt_cek (reorder E o)) with (encrypt_cek E). destruct (encrypt_cek E (rnd i) m sk d seal_cek p); cbn [rbind]; [|reflexivity|reflexivity]. now rewrite IH.
Qed.
Lemma seal_reorder : forall E o rnd m sk keys, seal (reorder E o) rnd m sk keys = seal E rnd m sk keys.
Proof.
  intros E o rnd m sk keys. unfold seal. change (encryptor (reorder E o)) with (encryptor E).
  destruct (negb _); [reflexivity|]. destruct keys as [l|]; [destruct (negb _); [reflexivity|]|]; cbn [rbind]; destruct (_ =? 0)%nat; try reflexivity;
    destruct (m_flat_jwe m && _)%bool; try reflexivity; now rewrite seal_loop_reorder.
Qed.
Lemma seal_signed_reorder : forall E o rnd m sk keys sa ssk, seal_signed (reorder E o) rnd m sk keys sa ssk = seal_signed E rnd m sk keys sa ssk.
Proof.
  intros E o rnd m sk keys sa ssk. unfold seal_signed. change (signer (reorder E o) sa) with (signer E sa).
  destruct (sign (as_jws m sa) (signer E sa) ssk) as [s| |]; cbn [rbind]; [|reflexivity|reflexivity]. destruct (parse s) as [j|] eqn:EP; cbn [oerr rbind]; [|reflexivity].
  unfold value_of. rewrite (vof_fnorm (rt (reorder E o) 0) (rt E 0) j); [|eapply parse_num_wf; eauto|reflexivity].
  set (b := if (depth j <=? max_depth)%nat then vof (rt E 0) j else None). destruct b as [b|]; cbn [oerr rbind]; [apply seal_reorder|reflexivity].
Qed.
Lemma routed_reorder : forall E o rnd1 rnd2 uuid m sk keys mediator key, routed_by (reorder E o) rnd1 rnd2 uuid m sk keys mediator key = routed_by E rnd1 rnd2 uuid m sk keys mediator key.
Proof.
  intros E o rnd1 rnd2 uuid m sk keys mediator key. unfold routed_by. change (resolve (reorder E o)) with (resolve E).
  destruct (crypter_of (m_jwm m)) as [a| |]; cbn [rbind]; [|reflexivity|reflexivity]. destruct (first_to (m_did m)) as [next| |]; cbn [rbind]; [|reflexivity|reflexivity].
  rewrite seal_reorder. destruct (seal E rnd1 m sk keys) as [inner| |]; cbn [rbind]; [|reflexivity|reflexivity].
  rewrite (set_body_fnorm (rt (reorder E o) 0) (rt E 0)) by reflexivity. destruct (set_body (rt E 0) _ _) as [outer| |]; cbn [rbind]; [|reflexivity|reflexivity].
  apply seal_reorder.
Qed.

(** ** Envelopes made by this library embed few keys *)

Lemma same_few : forall a b, same_header a b -> few_custom a -> few_custom b.
Proof. intros a b H F. now rewrite <- (few_header a b H F). Qed.
Lemma few_opt_back : forall a b, orel same_header a b -> opt_all few_custom b -> opt_all few_custom a.
Proof. intros [a|] [b|] H F; cbn in *; try contradiction; try exact I. apply (same_few b a); [apply same_header_sym; exact H|exact F]. Qed.
Lemma calm_signature_back : forall a b, same_signature a b -> calm_signature b -> calm_signature a.
Proof. intros a b [H _] F. eapply few_opt_back; [exact H|exact F]. Qed.

Lemma given_in : forall es k x, given [] (JObj es) k x -> In k (map fst es).
Proof.
  intros es k x H. inversion H as [es' k' x' HO E1 E2 E3|]; subst. destruct HO as [b [a [-> _]]]. rewrite map_app. apply in_or_app. right. now left.
Qed.
Ltac no_member := let H := fresh "H" in intros H; apply given_in in H; revert H.

Lemma sign_env_names : forall m s k, In k ["ciphertext"; "body"] -> forall es, ser_jws (sign_env m s) = JObj es -> ~ In k (map fst es).
Proof.
  intros m s k HK es HE. unfold ser_jws, sign_env, sign_entry in HE. destruct (m_flat_jws m); cbn [js_payload js_signature js_signatures] in HE; injection HE as <-;
    cbn; intros HI; repeat (destruct HK as [<-|HK]; [repeat (destruct HI as [HI|HI]; [discriminate HI|]); exact HI|]); destruct HK.
Qed.
Lemma sealed_env_names : forall h sh ct tag iv rs k, placed sh rs -> In k ["payload"; "body"] -> forall es, ser_jwe (sealed_env h sh ct tag iv) = JObj es -> ~ In k (map fst es).
Proof.
  intros h sh ct tag iv rs k HP HK es HE. unfold ser_jwe, sealed_env in HE. cbn [je_protected je_unprotected je_recipient je_recipients je_ciphertext je_iv je_tag] in HE.
  destruct HP as [->|[r [_ ->]]]; cbn [fst snd] in HE; injection HE as <-; cbn; intros HI;
    repeat (destruct HK as [<-|HK]; [repeat (destruct HI as [HI|HI]; [discriminate HI|]); exact HI|]); destruct HK.
Qed.
Lemma sign_calm : forall E m f sk text, env_ok E -> good_header (m_jwm m) -> few_custom (m_jwm m) -> sign m f sk = Ok text -> calm E text.
Proof.
  intros E m f sk text HE HG HF H. apply sign_ok in H. destruct H as [s [_ [_ ->]]]. pose proof (sign_env_names m s) as HN.
  assert (HD : forall j, document (jws_json (sign_env m s)) j -> j = ser_jws (sign_env m s)).
  { intros j Hj. apply document_iff in Hj. unfold jws_json in Hj. rewrite parse_print in Hj by apply wf_ser_jws. congruence. }
  destruct (ser_jws (sign_env m s)) as [| | | | |es] eqn:ES; try discriminate ES. split.
  - intros j Hj. pose proof (HD j Hj) as ->. split.
    + intros e [es' [E1 [_ [_ [_ [_ [[x [Hx _]] _]]]]]]]. elim (HN "ciphertext" (or_introl eq_refl) es eq_refl). eapply given_in; exact Hx.
    + intros w Hw. destruct (jws_reads (rt E 0) (ser_jws (sign_env m s)) (env_drt E 0 HE)) as [_ G]; [apply wf_num_wf; apply wf_ser_jws|]. rewrite ES in G. destruct (G w Hw) as [w' [G1 G2]].
      destruct (jws_round (rt E 0) (sign_env m s) (sign_env_good m s HG)) as [_ GR]. unfold jws_from_str, jws_json in GR. rewrite parse_print in GR by apply wf_ser_jws. cbn [obind] in GR.
      rewrite ES, G1 in GR. apply some_inj in GR. subst w'. destruct G2 as [_ [G2 G3]].
      assert (GC : calm_signature (re_signature (rt E 0) (sign_entry m s))).
      { unfold calm_signature. cbn [sign_entry re_signature sg_protected option_map opt_all]. rewrite re_jwm_few; [exact HF|now apply env_drt|exact HF]. }
      split.
      * destruct (js_signature w) as [a|]; [|exact I]. unfold re_jws, sign_env in G2. cbn [opt_all]. destruct (m_flat_jws m); cbn [js_signature orel] in G2;
          (eapply calm_signature_back; [exact G2|]); [exact GC|exact I].
      * destruct (js_signatures w) as [l|]; [|exact I]. unfold re_jws, sign_env in G3. destruct (m_flat_jws m); cbn [js_signatures option_map orel] in G3; [contradiction|]. cbn [opt_all].
        apply Forall_forall. intros a Ha. destruct (Forall2_In_l _ _ _ _ _ a G3 Ha) as [b [Hb Sb]]. apply in_map_iff in Hb. destruct Hb as [c [<- Hc]]. apply in_map_iff in Hc.
        destruct Hc as [_ [<- _]]. eapply calm_signature_back; eauto.
  - intros j m' Hj [es' [E1 [_ [[x [Hx _]] _]]]]. pose proof (HD j Hj) as ->. elim (HN "body" (or_intror (or_introl eq_refl)) es eq_refl). eapply given_in; exact Hx.
Qed.
Lemma seal_calm : forall E rnd m sk keys text, env_ok E -> sendable E m -> few_custom (m_jwm m) -> seal E rnd m sk keys = Ok text -> calm E text.
Proof.
  intros E rnd m sk keys text HE HS HF H. apply seal_text in H. destruct H as [a [rs [sh [c [_ [_ [_ [_ [HP [_ [HR [_ [_ ->]]]]]]]]]]]]].
  set (e := sealed_env _ _ _ _ _) in *. pose proof (fun k => sealed_env_names (seal_header m) sh (take (String.length c - 16) c) (drop (String.length c - 16) c) (sr_iv rnd) rs k HP) as HN. fold e in HN.
  assert (HG : good_jwe e) by (apply (sealed_env_good _ _ rs); [now apply (seal_header_good E)|exact HP|exact HR]).
  assert (HD : forall j, document (jwe_json e) j -> j = ser_jwe e).
  { intros j Hj. apply document_iff in Hj. unfold jwe_json in Hj. rewrite parse_print in Hj by apply wf_ser_jwe. congruence. }
  assert (HX : exists es, ser_jwe e = JObj es) by (unfold ser_jwe; eexists; reflexivity). destruct HX as [es ES]. split.
  - intros j Hj. pose proof (HD j Hj) as ->. split.
    + intros v Hv. destruct (jwe_reads (rt E 0) (ser_jwe e) (env_drt E 0 HE)) as [_ G]; [apply wf_num_wf; apply wf_ser_jwe|]. destruct (G v Hv) as [v' [G1 G2]].
      destruct (jwe_round (rt E 0) e HG) as [_ GR]. unfold jwe_from_str, jwe_json in GR. rewrite parse_print in GR by apply wf_ser_jwe. cbn [obind] in GR.
      rewrite G1 in GR. apply some_inj in GR. subst v'. destruct G2 as [G2 _]. eapply few_opt_back; [exact G2|]. unfold e. rewrite re_sealed_env. cbn [sealed_env je_protected opt_all].
      rewrite re_jwm_few; [now apply seal_header_few|now apply env_drt|now apply seal_header_few].
    + intros w [es' [E1 [[x [Hx _]] _]]]. rewrite ES in Hx. elim (HN "payload" (or_introl eq_refl) es ES). eapply given_in; exact Hx.
  - intros j m' Hj [es' [E1 [_ [[x [Hx _]] _]]]]. pose proof (HD j Hj) as ->. rewrite ES in Hx. elim (HN "body" (or_intror (or_introl eq_refl)) es ES). eapply given_in; exact Hx.
Qed.

Lemma no_given : forall m k x, avoids [k] (dh_other (m_did m)) -> ~ In k header_names -> ~ given [] (JObj (message_entries m)) k x.
Proof.
  intros m k x HA HN H. apply given_in in H.
  assert (P : picked (jwm_names ++ (did_fixed ++ map fst (dh_other (m_did m))) ++ ["recipients"] ++ ["body"] ++ ["attachments"])%list (message_entries m)).
  { unfold message_entries. apply picked_app; [apply jwm_picked|]. apply picked_app; [apply did_picked|]. apply picked_app; [apply picked_sopt|].
    apply (picked_app _ ["body"]); [apply picked_one|apply picked_svec]. }
  apply (picked_in _ _ _ _ P) in H. apply HN. change header_names with (["recipients"; "body"; "attachments"] ++ jwm_names ++ did_fixed)%list.
  rewrite !in_app_iff in H. rewrite !in_app_iff. cbn [In] in *. destruct H as [H|[[H|H]|[H|[H|H]]]]; try tauto. elim (HA k H). now left.
Qed.
Lemma message_calm : forall E m, env_ok E -> sendable E m -> avoids ["ciphertext"] (dh_other (m_did m)) -> avoids ["payload"] (dh_other (m_did m)) ->
  calm_envelope E (get_body m) -> calm E (message_json m).
Proof.
  intros E m HE HS A1 A2 HB. destruct (raw_json_text m (sd_rust _ _ HS)) as [HP _]. unfold as_raw_json in HP.
  assert (HD : forall j, document (message_json m) j -> j = JObj (message_entries m)) by (intros j Hj; apply document_iff in Hj; congruence). split.
  - intros j Hj. pose proof (HD j Hj) as ->. split.
    + intros e [es' [_ [_ [_ [_ [_ [[x [Hx _]] _]]]]]]]. elim (no_given m "ciphertext" x A1); [|exact Hx]. cbn. intuition discriminate.
    + intros w [es' [_ [[x [Hx _]] _]]]. elim (no_given m "payload" x A2); [|exact Hx]. cbn. intuition discriminate.
  - intros j m' Hj Hm. pose proof (HD j Hj) as ->. destruct (message_reads (rt E 0) (JObj (message_entries m)) (env_drt E 0 HE)) as [_ G]; [eapply parse_num_wf; exact HP|].
    destruct (G m' Hm) as [m2 [G1 G2]]. pose proof (sendable_from_str E 0 m HS) as GR. unfold message_from_str in GR. rewrite HP in GR. cbn [obind] in GR. rewrite G1 in GR.
    apply some_inj in GR. subst m2. destruct G2 as [_ [_ [_ [G2 _]]]]. unfold get_body in *. rewrite G2. exact HB.
Qed.
Lemma calm_object : forall E es, rust_value (JObj es) -> ~ In "ciphertext" (map fst es) -> ~ In "payload" (map fst es) -> calm_envelope E (print (JObj es)).
Proof.
  intros E es HW N1 N2 j Hj. apply document_iff in Hj. rewrite parse_print in Hj by now apply rust_value_wf. apply some_inj in Hj. subst j. split.
  - intros e [es' [_ [_ [_ [_ [_ [[x [Hx _]] _]]]]]]]. elim N1. eapply given_in; exact Hx.
  - intros w [es' [_ [[x [Hx _]] _]]]. elim N2. eapply given_in; exact Hx.
Qed.
Lemma sealed_order : forall E o rnd m sk keys text i dest rsk spk signing from, env_ok E -> env_ok (reorder E o) -> crypto_ok E -> rand_ok rnd -> sendable E m -> few_custom (m_jwm m) ->
  dh_from (m_did m) = Some from -> seal E rnd m sk keys = Ok text -> nth_error (dh_to (m_did m)) i = Some dest -> String.length rsk = 32 ->
  known_key E dest (given_key keys i) (x_pub E rsk) -> known_key E from spk (x_pub E sk) -> others_closed E rnd m sk keys rsk i ->
  avoids ["ciphertext"] (dh_other (m_did m)) -> avoids ["payload"] (dh_other (m_did m)) -> calm_envelope E (get_body m) ->
  same_result same_message (receive E text (Some rsk) spk signing) (receive (reorder E o) text (Some rsk) spk signing).
Proof.
  intros E o rnd m sk keys text i dest rsk spk signing from HE HE' HC HR HS HF HFr HSe HN HL HK HK' HB A1 A2 HBo.
  apply receive_order; [exact HE|exact HE'|eapply seal_calm; eauto|]. intros k t Hk Ht. apply some_inj in Hk. subst k.
  destruct (seal_receive_jwe E rnd m sk keys text i dest rsk spk from HE HC HR HS HF HFr HSe HN HL HK HK' HB) as [rs [H1 [H2 [H3 H4]]]]. rewrite H3 in Ht. apply ok_inj in Ht. subst t.
  assert (HSM : sendable E (with_recipients m (Some rs))) by now apply with_recipients_sendable. pose proof (re_message_same E 3 _ HE : same_message (with_recipients m (Some rs)) _) as HM.
  apply message_calm; [exact HE|now apply (same_sendable E _ _ HM)|..].
  - destruct HM as [_ [HM _]]. eapply avoids_perm; [|exact A1]. apply HM.
  - destruct HM as [_ [HM _]]. eapply avoids_perm; [|exact A2]. apply HM.
  - exact HBo.
Qed.

(** ** What of a message an encrypted envelope depends on *)

Lemma encrypt_cek_alike : forall E rr m m' sk dest cek pk, m_jwm m = m_jwm m' -> encrypt_cek E rr m sk dest cek pk = encrypt_cek E rr m' sk dest cek pk.
Proof. intros E rr m m' sk dest cek pk H. unfold encrypt_cek. now rewrite H. Qed.
Lemma seal_loop_alike : forall E rnd m m' sk ds ps i, m_jwm m = m_jwm m' -> seal_loop E rnd m sk i ds ps = seal_loop E rnd m' sk i ds ps.
Proof.
  intros E rnd m m' sk ds ps i H. revert i ps. induction ds as [|d ds IH]; intros i [|p ps]; [reflexivity|reflexivity|reflexivity|]. cbn [seal_loop].
  rewrite (encrypt_cek_alike E (rnd i) m m' sk d seal_cek p H). destruct (encrypt_cek E (rnd i) m' sk d seal_cek p); cbn [rbind]; [|reflexivity|reflexivity]. now rewrite IH.
Qed.

Lemma nth_ext_error : forall A (a b : list A), (forall k, nth_error a k = nth_error b k) -> a = b.
Proof.
  intros A a. induction a as [|x a IH]; intros [|y b] H; [reflexivity|specialize (H 0); discriminate|specialize (H 0); discriminate|].
  pose proof (H 0) as H0. cbn in H0. apply some_inj in H0. subst y. f_equal. apply IH. intros k. exact (H (S k)).
Qed.
(** What [seal] does with the message beyond the parts compared by [alike]. *)
Lemma alike_header : forall m m', alike m m' -> seal_header m = seal_header m'.
Proof. intros m m' [H1 [H2 _]]. unfold seal_header. now rewrite H1, H2. Qed.
Lemma differ_env : forall h sh ct tag iv ct' tag', exists es es', ser_jwe (sealed_env h sh ct tag iv) = JObj es /\ ser_jwe (sealed_env h sh ct' tag' iv) = JObj es' /\
  differ_only ["ciphertext"; "tag"] es es'.
Proof.
  intros h sh ct tag iv ct' tag'. unfold ser_jwe, sealed_env. cbn [je_protected je_unprotected je_recipient je_recipients je_ciphertext je_iv je_tag].
  eexists. eexists. split; [reflexivity|]. split; [reflexivity|].
  assert (R : forall l, differ_only ["ciphertext"; "tag"] l l) by (induction l; constructor; auto).
  assert (A : forall a b c d, differ_only ["ciphertext"; "tag"] a b -> differ_only ["ciphertext"; "tag"] c d -> differ_only ["ciphertext"; "tag"] (a ++ c) (b ++ d)) by (intros; now apply Forall2_app).
  do 4 (apply A; [apply R|]). apply A.
  - constructor; [split; [reflexivity|right; now left]|]. apply R.
  - cbn [sopt]. constructor; [split; [reflexivity|right; right; now left]|constructor].
Qed.
Lemma seal_shown : forall E rnd m m' sk keys text text', alike m m' -> seal E rnd m sk keys = Ok text -> seal E rnd m' sk keys = Ok text' ->
  exists es es', document text (JObj es) /\ document text' (JObj es') /\ differ_only ["ciphertext"; "tag"] es es'.
Proof.
  intros E rnd m m' sk keys text text' HA H H'. pose proof (alike_header m m' HA) as HH. destruct HA as [A1 [A2 [A3 A4]]].
  apply seal_text in H. destruct H as [a [rs [sh [c [_ [_ [L1 [R1 [P1 [F1 [_ [_ [_ ->]]]]]]]]]]]]].
  apply seal_text in H'. destruct H' as [a' [rs' [sh' [c' [_ [_ [L2 [R2 [P2 [F2 [_ [_ [_ ->]]]]]]]]]]]]].
  assert (HR : rs = rs').
  { rewrite <- A3 in L2, R2. apply nth_ext_error. intros k. destruct (nth_error (dh_to (m_did m)) k) as [dest|] eqn:EK.
    - destruct (R1 k dest EK) as [r [G1 G2]], (R2 k dest EK) as [r' [G1' G2']]. rewrite (encrypt_cek_alike E _ m m') in G2 by exact A1. rewrite G1, G1'. congruence.
    - apply nth_error_None in EK. rewrite (proj2 (nth_error_None rs k)) by lia. symmetry. apply nth_error_None. lia. }
  subst rs'. assert (HS : sh = sh').
  { rewrite <- A4 in F2. destruct P1 as [->|[r [-> ->]]], P2 as [->|[r' [E2 ->]]]; try reflexivity; cbn [fst] in *.
    - exfalso. assert (X : m_flat_jwe m = true) by (apply F2; discriminate). apply F1 in X. now elim X.
    - exfalso. assert (X : m_flat_jwe m = true) by (apply F1; discriminate). apply F2 in X. now elim X.
    - congruence. }
  subst sh'. rewrite <- HH. destruct (differ_env (seal_header m) sh (take (String.length c - 16) c) (drop (String.length c - 16) c) (sr_iv rnd)
    (take (String.length c' - 16) c') (drop (String.length c' - 16) c')) as [es [es' [E1 [E2 HD]]]].
  exists es, es'. rewrite <- E1, <- E2. split; [|split; [|exact HD]]; apply document_iff; apply parse_print; apply wf_ser_jwe.
Qed.
(** The environment that answers [c] when [p] is encrypted with associated data. *)
Definition answering (E : env) (p c : string) : env :=
  {| x_pub := x_pub E; x_dh := x_dh E; xc_dec := xc_dec E; gcm_dec := gcm_dec E; cbc_enc := cbc_enc E; sig_sign := sig_sign E; sig_verify := sig_verify E;
     resolve := resolve E; fl := fl E; ho := ho E;
     xc_enc := fun k n a q => if String.eqb a "" then xc_enc E k n a q else if String.eqb q p then Some c else xc_enc E k n a q;
     gcm_enc := fun k n a q => if String.eqb a "" then gcm_enc E k n a q else if String.eqb q p then Some c else gcm_enc E k n a q |}.
Lemma answering_same : forall E p c, same_but_for E (answering E p c) p.
Proof.
  intros E p c. split; [|split; [|repeat split]]; intros k n a q H; cbn; (destruct (String.eqb_spec a "") as [|N]; [reflexivity|]); destruct H as [H|H]; try contradiction;
    (destruct (String.eqb_spec q p); [contradiction|reflexivity]).
Qed.
Lemma seal_loop_answering : forall E p c rnd m sk ds ps i, seal_loop (answering E p c) rnd m sk i ds ps = seal_loop E rnd m sk i ds ps.
Proof.
  intros E p c rnd m sk ds ps i. revert i ps. induction ds as [|d ds IH]; intros i [|q ps]; [reflexivity|reflexivity|reflexivity|]. cbn [seal_loop].
  change (encrypt_cek (answering E p c)) with (encrypt_cek E). destruct (encrypt_cek E (rnd i) m sk d seal_cek q); cbn [rbind]; [|reflexivity|reflexivity]. now rewrite IH.
Qed.
Lemma header_b64_some : forall h, header_b64 h <> "".
Proof.
  intros h H. unfold header_b64 in H. apply (f_equal b64_decode) in H. rewrite b64_decode_encode in H. apply some_inj in H. revert H. discriminate.
Qed.
Lemma encryptor_answering : forall E a iv key p p' aad c, usable a -> aad <> "" -> encryptor E a iv key p aad = Ok c -> encryptor (answering E p' c) a iv key p' aad = Ok c.
Proof.
  intros E a iv key p p' aad c HU HN H. unfold encryptor in *. destruct a; [| |congruence].
  - destruct (check_nonce iv 24); cbn [rbind] in *; try discriminate. destruct (exact_len 24 iv) as [n| |]; cbn [rbind] in *; try discriminate.
    destruct (exact_len 32 key) as [k| |]; cbn [rbind] in *; try discriminate. cbn [answering xc_enc]. destruct (String.eqb_spec aad ""); [contradiction|]. now rewrite String.eqb_refl.
  - destruct (check_nonce iv 12); cbn [rbind] in *; try discriminate.
    destruct (exact_len 32 key) as [k| |]; cbn [rbind] in *; try discriminate. cbn [answering gcm_enc]. destruct (String.eqb_spec aad ""); [contradiction|]. now rewrite String.eqb_refl.
Qed.
Lemma seal_explained : forall E rnd m m' sk keys text, alike m m' -> seal E rnd m sk keys = Ok text ->
  exists E' rs, List.length rs = List.length (dh_to (m_did m)) /\ same_but_for E E' (as_raw_json (with_recipients m' (Some rs))) /\ seal E' rnd m' sk keys = Ok text.
Proof.
  intros E rnd m m' sk keys text HA H. pose proof (alike_header m m' HA) as HH. destruct HA as [A1 [A2 [A3 A4]]].
  unfold seal in H. destruct (negb _) eqn:B1 in H; [discriminate|].
  destruct (match keys with Some _ => _ | None => _ end) as [pks| |] eqn:EP in H; cbn [rbind] in H; try discriminate.
  destruct (_ =? 0)%nat eqn:B2 in H; [discriminate|]. destruct (m_flat_jwe m && _)%bool eqn:B3 in H; [discriminate|].
  destruct (seal_loop E (sr_rec rnd) m sk 0 (dh_to (m_did m)) pks) as [rs| |] eqn:ES; cbn [rbind] in H; try discriminate.
  cbn [with_recipients m_jwm] in H. destruct (crypter_of (m_jwm m)) as [a| |] eqn:EC; cbn [rbind] in H; try discriminate.
  pose proof H as H0. apply encrypt_ok in H0. destruct H0 as [h [c [sh [E1 [E2 [E3 [E4 ->]]]]]]]. rewrite seal_header_eq in E1. apply ok_inj in E1. subst h.
  set (p := message_json (with_recipients m' (Some rs))). exists (answering E p c), rs. split; [|split; [apply answering_same|]].
  { assert (HP : List.length pks = List.length (dh_to (m_did m))).
    { destruct keys as [l|]; [|apply ok_inj in EP; subst pks; apply repeat_length]. destruct (Nat.eqb_spec (List.length l) (List.length (dh_to (m_did m)))); [|discriminate].
      apply ok_inj in EP. now subst. }
    now apply (seal_loop_ok _ _ _ _ _ _ _ _ ES HP). }
  unfold seal. rewrite B1, <- A3, <- A4, EP. cbn [rbind]. rewrite B2, B3, seal_loop_answering, <- (seal_loop_alike E (sr_rec rnd) m m' sk _ pks 0 A1), ES. cbn [rbind with_recipients m_jwm].
  rewrite <- A1, EC. cbn [rbind]. rewrite <- H. unfold encrypt. rewrite !seal_header_eq, <- HH. cbn [rbind]. rewrite b64_decode_encode. cbn [oerr rbind].
  rewrite E2. fold p. rewrite (encryptor_answering E a (sr_iv rnd) seal_cek (message_json (with_recipients m (Some rs))) p (header_b64 (seal_header m)) c); [|..|exact E2].
  - cbn [with_recipients m_flat_jwe m_recipients]. now rewrite A4.
  - unfold crypter_of in EC. destruct (jh_alg (m_jwm m)) as [alg|]; [|discriminate]. apply crypto_alg_of_ok in EC. apply EC.
  - apply header_b64_some.
Qed.

(** What can be read without keys. *)
Lemma entries_labelled : forall E (rnd : nat -> rec_rand) m sk cek (given : nat -> option string) to rs, List.length rs = List.length to ->
  (forall k dest, nth_error to k = Some dest -> exists r, nth_error rs k = Some r /\ encrypt_cek E (rnd k) m sk dest cek (given k) = Ok r) ->
  Forall2 (fun dest r => exists kid, jk_kid (rc_header r) = Some kid /\ labelled dest kid) to rs.
Proof.
  intros E rnd m sk cek given to. revert rnd given. induction to as [|d to IH]; intros rnd given [|r rs] HL H; try discriminate; constructor.
  - destruct (H 0 d eq_refl) as [r' [H1 H2]]. cbn in H1. apply some_inj in H1. subst r'. apply encrypt_cek_ok in H2. destruct H2 as [a [key [c [_ [_ [_ [_ [_ [_ [_ [_ [_ ->]]]]]]]]]]]].
    eexists. split; [reflexivity|apply did_of_url_labelled].
  - apply (IH (fun k => rnd (S k)) (fun k => given (S k))); [now injection HL|]. intros k dest HK. exact (H (S k) dest HK).
Qed.
Lemma seal_visible : forall E rnd m sk keys text, env_ok E -> sendable E m -> seal E rnd m sk keys = Ok text ->
  exists j e h l, document text j /\ jwe_text (rt E 0) j e /\ je_protected e = Some h /\ same_header (seal_header m) h /\
    jwe_recipients e = Some l /\ Forall2 (fun dest r => exists kid, jk_kid (rc_header r) = Some kid /\ labelled dest kid) (dh_to (m_did m)) l.
Proof.
  intros E rnd m sk keys text HE HS H. apply seal_text in H. destruct H as [a [rs [sh [c [HU [_ [HL [HN [HP [_ [HR [_ [_ ->]]]]]]]]]]]]].
  set (e := sealed_env _ _ _ _ _). assert (HG : good_jwe e) by (apply (sealed_env_good _ _ rs); [now apply (seal_header_good E)|exact HP|exact HR]).
  exists (ser_jwe e), (re_jwe (rt E 0) e), (re_jwm (rt E 0) (seal_header m)), (map (re_recipient (rt E 0)) rs).
  assert (HD : parse (jwe_json e) = Some (ser_jwe e)) by (unfold jwe_json; apply parse_print, wf_ser_jwe).
  split; [now apply document_iff|]. split.
  { destruct (jwe_reads (rt E 0) (ser_jwe e) (env_drt E 0 HE)) as [G _]; [apply wf_num_wf, wf_ser_jwe|]. apply G.
    destruct (jwe_round (rt E 0) e HG) as [_ GR]. unfold jwe_from_str in GR. rewrite HD in GR. exact GR. }
  unfold e. rewrite re_sealed_env. cbn [sealed_env je_protected]. split; [reflexivity|]. split; [apply re_jwm_same; exact HE|]. split.
  { unfold jwe_recipients. cbn [sealed_env je_recipients je_recipient]. destruct HP as [->|[r [-> ->]]]; reflexivity. }
  pose proof (entries_labelled E (sr_rec rnd) m sk seal_cek (given_key keys) _ rs HL HN) as HF. clear - HF. induction HF as [|d r to rs HX HF IH]; cbn [map]; constructor; [exact HX|exact IH].
Qed.
Lemma encryptor_size : forall E a iv key p aad c, same_size (xc_enc E) -> same_size (gcm_enc E) -> usable a -> encryptor E a iv key p aad = Ok c -> String.length c = String.length p + 16.
Proof.
  intros E a iv key p aad c SX SG HU HC. unfold encryptor in HC. destruct a; [| |congruence].
  - destruct (check_nonce iv 24); cbn [rbind] in HC; try discriminate. destruct (exact_len 24 iv) as [n| |]; cbn [rbind] in HC; try discriminate.
    destruct (exact_len 32 key) as [k| |]; cbn [rbind] in HC; try discriminate. apply oerr_ok in HC. now apply SX in HC.
  - destruct (check_nonce iv 12); cbn [rbind] in HC; try discriminate.
    destruct (exact_len 32 key) as [k| |]; cbn [rbind] in HC; try discriminate. apply oerr_ok in HC. now apply SG in HC.
Qed.
Lemma seal_size : forall E rnd m sk keys text, same_size (xc_enc E) -> same_size (gcm_enc E) -> seal E rnd m sk keys = Ok text ->
  exists j es x s c rs, document text j /\ j = JObj es /\ In ("ciphertext", x) es /\ text_of x s /\ b64_decode s = Some c /\ List.length rs = List.length (dh_to (m_did m)) /\
    String.length c = String.length (as_raw_json (with_recipients m (Some rs))).
Proof.
  intros E rnd m sk keys text SX SG H. apply seal_text in H. destruct H as [a [rs [sh [c [HU [_ [HL [_ [HP [_ [_ [HC [HC' ->]]]]]]]]]]]]].
  eexists. eexists. eexists. exists (b64_encode (take (String.length c - 16) c)), (take (String.length c - 16) c), rs.
  split; [apply document_iff; apply parse_print, wf_ser_jwe|]. split; [reflexivity|]. split.
  { do 4 (apply in_or_app; right). apply in_or_app. left. left. reflexivity. }
  split; [eexists; reflexivity|]. split; [apply b64_decode_encode|]. split; [exact HL|]. rewrite take_length by lia. unfold as_raw_json.
  rewrite (encryptor_size E a _ _ _ _ _ SX SG HU HC). lia.
Qed.
