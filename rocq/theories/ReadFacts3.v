(** Messages and envelopes are read exactly as SpecDecode describes. *)

From Coq Require Import Ascii String Arith NArith List Bool Permutation Lia.
From Verif Require Import Bytes BytesFacts Base64 Utf8 Json JsonFacts Value ValueFacts Types Serde SerdeFacts Spec SpecFacts SpecText SpecJson
  SpecDecode GrammarFacts BodyFacts DecodeFacts CodecFacts ReadFacts ReadFacts2.
Import ListNotations.
Local Open Scope string_scope.

(** ** Messages *)

Lemma rest_rest : forall a b es, rest_of a (rest_of b es) = rest_of (b ++ a)%list es.
Proof.
  intros a b es. unfold rest_of. induction es as [|[k x] es IH]; [reflexivity|]. cbn [filter fst].
  assert (E : smem k (b ++ a)%list = smem k b || smem k a).
  { apply eq_iff_eq_true. rewrite orb_true_iff, !smem_In, in_app_iff. reflexivity. }
  rewrite E. destruct (smem k b) eqn:Eb; cbn [negb orb filter fst]; [exact IH|]. destruct (smem k a); cbn [negb]; [exact IH|]. now rewrite IH.
Qed.
Lemma collected_names : forall V (P : json -> V -> Prop) a b es m, incl a b -> incl b a -> collected a P es m -> collected b P es m.
Proof.
  intros V P a b es m Hab Hba [H1 [H2 H3]]. split; [exact H1|]. split.
  - intros k v. rewrite H2. split; intros [G1 G2]; (split; [intros G; apply G1; auto|exact G2]).
  - intros k x Hx Hk. apply (H3 k x Hx). auto.
Qed.
Definition before_did : list string := (message_fields ++ jwm_fields)%list.
Lemma all_names : incl (before_did ++ didcomm_fields) header_names /\ incl header_names (before_did ++ didcomm_fields).
Proof. split; intros x H; repeat (destruct H as [<-|H]; [cbn; tauto|]); destruct H. Qed.

Ltac see ::= match goal with HS : forall k, In k _ -> sees _ _ k _ |- _ => apply HS; cbn; tauto end.
Lemma didcomm_members_reads : forall R es, drt_ok R ->
  freads (de_didcomm R (rest_of before_did es)) (didcomm_members (JObj es)) same_did.
Proof.
  intros R es HR.
  assert (HS : forall k, In k didcomm_fields -> sees [] (JObj es) k (member (rest_of before_did es) k)).
  { intros k Hk. apply member_rest_sees. intros HB. repeat (destruct Hk as [<-|Hk]; [repeat (destruct HB as [HB|HB]; [discriminate|]); destruct HB|]). destruct Hk. }
  split.
  - intros v H. unfold de_didcomm in H. cbv zeta in H. chain H. apply some_inj in H. subst v. exists es.
    cbn [dh_id dh_thid dh_pthid dh_type dh_to dh_from dh_created dh_expires dh_from_prior dh_thread dh_other]. split; [reflexivity|]. conj; try sound.
    rewrite rest_rest in *. eapply collected_names; [apply all_names..|].
    eapply (collected_freads _ R de_string); [exact HR|exact text_reader|eassumption].
  - intros [a b c d e f g h i k l] [es' [HE [H1 [H2 [H3 [H4 [H5 [H6 [H7 [H8 [H9 [H10 H11]]]]]]]]]]]]. injection HE as <-.
    cbn [dh_id dh_thid dh_pthid dh_type dh_to dh_from dh_created dh_expires dh_from_prior dh_thread dh_other] in *.
    comp H1. comp H2. comp H3. comp H4. comp H5. comp H6. comp H7. comp H8. comp H9. comp H10.
    apply (collected_names _ _ _ (before_did ++ didcomm_fields)) in H11; [|apply all_names..].
    apply (collected_freads _ R de_string) in H11; [|exact HR|exact text_reader]. destruct H11 as [l' [EL SL]].
    eexists. split. { unfold de_didcomm. cbv zeta. use E. use E0. use E1. use E2. use E3. use E4. use E5. use E6. use E7. use E8.
                      rewrite rest_rest. use EL. reflexivity. }
    unfold same_did. cbn [dh_id dh_thid dh_pthid dh_type dh_to dh_from dh_created dh_expires dh_from_prior dh_thread dh_other]. auto 14.
Qed.
Ltac see ::= first [apply member_sees | match goal with HS : forall k, In k _ -> sees _ _ k _ |- _ => apply HS; cbn; tauto end].

Lemma given_wf : forall fs es k x, num_wf (JObj es) -> given fs (JObj es) k x -> num_wf x.
Proof.
  intros fs es k x Hw H. apply num_wf_obj in Hw. rewrite Forall_forall in Hw. inversion H as [? ? ? [b [a [-> _]]]|]; subst.
  apply (Hw (k, x)). apply in_or_app. right. now left.
Qed.

Lemma message_reads : forall R j, drt_ok R -> num_wf j -> freads (de_message R j) (message_text R j) same_message.
Proof.
  intros R j HR Hw. destruct j as [| | | | |es]; try (split; [discriminate|intros v [es [H _]]; discriminate]).
  assert (HS : forall k, In k jwm_names -> sees [] (JObj es) k (member (rest_of message_fields es) k)).
  { intros k Hk. apply member_rest_sees. intros HB. repeat (destruct Hk as [<-|Hk]; [repeat (destruct HB as [HB|HB]; [discriminate|]); destruct HB|]). destruct Hk. }
  pose proof (jwm_members_reads (bf := true) R [] (JObj es) _ HR HS) as [J1 J2]. pose proof (didcomm_members_reads R es HR) as [D1 D2].
  pose proof (buffered_iff R message_fields es Hw) as HB. pose proof (member_sees [] es "body") as [SB _]. split.
  - intros v H. unfold de_message in H. cbv zeta in H. chain H. destruct (forallb _ _) eqn:EF; [|discriminate]. chain H. apply some_inj in H. subst v.
    exists es. cbn [m_jwm m_did m_recipients m_body m_attachments m_flat_jwe m_flat_jws]. split; [reflexivity|].
    rewrite rest_rest in *. clear HS. conj; try sound; try reflexivity; auto.
    + apply dreq_some in E0. destruct E0 as [y [Ey E0]]. apply SB in Ey. exists y. split; [exact Ey|]. apply body_reader; [|exact E0]. eapply given_wf; eauto.
    + now apply HB.
  - intros [jw dd rs b f1 f2 at_] [es' [HE [H1 [H2 [H3 [H4 [H5 [H6 [H7 H8]]]]]]]]]. injection HE as <-. clear HS.
    cbn [m_jwm m_did m_recipients m_body m_attachments m_flat_jwe m_flat_jws] in *. comp H1. comp H3.
    destruct H2 as [y [Hy H2]]. apply body_reader in H2; [|eapply given_wf; eauto]. apply SB in Hy.
    apply J2 in H4. destruct H4 as [jw' [EJ SJ]]. apply D2 in H5. destruct H5 as [dd' [ED SD]]. apply HB in H6.
    eexists. split. { unfold de_message. cbv zeta. use E. rewrite Hy. cbn [dreq]. use H2. use E0. rewrite H6. use EJ. rewrite rest_rest. fold before_did. use ED. reflexivity. }
    unfold same_message. cbn [m_jwm m_did m_recipients m_body m_attachments m_flat_jwe m_flat_jws]. auto 8.
Qed.

(** ** Envelopes *)

Lemma protected_freads : forall R fs j x, drt_ok R -> sees fs j "protected" x ->
  freads (de_protected R x) (protected_field fs j) (orel same_header).
Proof.
  intros R fs j x HR [G [HA HS]]. split.
  - intros o H. unfold de_protected in H. destruct x as [[| |y]|]; cbn [ddef] in H; try discriminate.
    + left. split; [congruence|]. left. now apply HA.
    + left. split; [congruence|]. right. left. now apply HS.
    + destruct y as [| | |e s| |]; try discriminate.
      * left. split; [congruence|]. right. right. now apply G.
      * right. cbn [de_string option_map] in H. apply obind_some in H. destruct H as [b [Eb H]]. cbn beta in H. apply obind_some in H. destruct H as [i [Ei H]]. cbn beta in H.
        unfold parse_slice in Ei. destruct (utf8_valid b) eqn:EU; [|discriminate]. apply document_iff in Ei. apply utf8_iff in EU.
        exists (JStr e s), s, b, i. split; [now apply G|]. split; [now exists e|]. split; [exact Eb|]. split; [exact EU|]. split; [exact Ei|].
        destruct o as [h|].
        -- split; [intros ->; discriminate|]. apply (jwm_reader R HR). destruct i; try discriminate; cbn [dopt] in H; destruct (de_jwm R false _); congruence.
        -- destruct i; try reflexivity; cbn [dopt] in H; destruct (de_jwm R false _); discriminate.
  - intros o [[-> H]|[y [s [b [i [Hy [[e ->] [Eb [EU [Ei H]]]]]]]]]].
    + exists None. split; [|exact I]. destruct H as [H|[H|H]]; [apply HA in H|apply HS in H|apply G in H]; subst x; reflexivity.
    + apply G in Hy. subst x. unfold de_protected. cbn [ddef de_string option_map]. use Eb. unfold parse_slice. apply utf8_iff in EU. rewrite EU.
      apply document_iff in Ei. use Ei. destruct o as [h|].
      * destruct H as [HN H]. apply (jwm_reader R HR) in H. destruct H as [h' [E S]]. exists (Some h'). split; [|exact S].
        destruct i; try congruence; cbn [dopt]; now rewrite E.
      * subst i. exists None. now split.
Qed.
Lemma bytes_reader : reader de_b64_buffer bytes_of eq.
Proof.
  apply exact_reader. intros x v. split.
  - destruct x as [| | |[|] s| |]; try discriminate. intros H. now exists s.
  - intros [s [-> H]]. exact H.
Qed.
#[export] Hint Resolve bytes_reader : rd.

Lemma signature_members_reads : forall {bf} R fs j g, drt_ok R -> (forall k, In k ["protected"; "header"; "signature"] -> sees fs j k (g k)) ->
  freads (de_signature_from R bf g) (signature_members bf fs j) same_signature.
Proof.
  intros bf R fs j g HR HS. pose proof (protected_freads R fs j (g "protected") HR (HS "protected" (or_introl eq_refl))) as [P1 P2]. split.
  - intros v H. unfold de_signature_from in H. chain H. apply some_inj in H. subst v. unfold signature_members. cbn [sg_protected sg_header sg_signature]. conj; [auto|sound|sound].
  - intros [a b c] [H1 [H2 H3]]. cbn [sg_protected sg_header sg_signature] in *. apply P2 in H1. destruct H1 as [a' [EA SA]]. comp H2. comp H3.
    eexists. split. { unfold de_signature_from. use EA. use E. use E0. reflexivity. }
    unfold same_signature. cbn [sg_protected sg_header sg_signature]. auto.
Qed.
Lemma signature_reader : forall R, drt_ok R -> reader (de_signature R) signature_text same_signature.
Proof.
  intros R HR j. unfold de_signature. split.
  - intros v H. apply obind_some in H. destruct H as [g [Hg H]]. apply view_sees in Hg; [|nodup]. destruct Hg as [HL HS]. split; [exact HL|].
    eapply (signature_members_reads R _ _ g HR HS); exact H.
  - intros v [HL H]. destruct (struct_sees _ _ HL) as [g [Hg HS]]; [nodup|].
    change signature_fields with ["protected"; "header"; "signature"]. use Hg. now apply (signature_members_reads R _ _ g HR HS).
Qed.
#[export] Hint Resolve signature_reader : rd.

Lemma flattened_reads : forall A (y : option A) Q S, freads y Q S -> flattened Q y /\ forall o, flattened Q o -> orel S o y.
Proof.
  intros A y Q S [H1 H2]. split.
  - destruct y as [v|]; cbn; [now apply H1|]. intros v HQ. apply H2 in HQ. destruct HQ as [v' [E _]]. discriminate.
  - intros [v|] H; cbn in H.
    + apply H2 in H. destruct H as [v' [-> HS]]. exact HS.
    + destruct y as [v|]; [|exact I]. exact (H v (H1 v eq_refl)).
Qed.

Lemma jws_reads : forall R j, drt_ok R -> num_wf j -> freads (de_jws R j) (jws_text R j) same_jws.
Proof.
  intros R j HR Hw. destruct j as [| | | | |es]; try (split; [discriminate|intros v [es [H _]]; discriminate]).
  assert (HS : forall k, In k ["protected"; "header"; "signature"] -> sees [] (JObj es) k (member (rest_of jws_fields es) k)).
  { intros k Hk. apply member_rest_sees. intros HB. repeat (destruct Hk as [<-|Hk]; [repeat (destruct HB as [HB|HB]; [discriminate|]); destruct HB|]). destruct Hk. }
  pose proof (flattened_reads _ _ _ _ (signature_members_reads (bf := true) R [] (JObj es) _ HR HS)) as [F1 F2].
  pose proof (buffered_iff R jws_fields es Hw) as HB. clear HS. split.
  - intros v H. unfold de_jws in H. cbv zeta in H. chain H. destruct (forallb _ _) eqn:EF; [|discriminate]. apply some_inj in H. subst v.
    exists es. cbn [js_payload js_signature js_signatures]. split; [reflexivity|]. conj; try sound; [exact F1|now apply HB].
  - intros [a b c] [es' [HE [H1 [H2 [H3 H4]]]]]. injection HE as <-. cbn [js_payload js_signature js_signatures] in *. comp H1. comp H2.
    apply HB in H4. apply F2 in H3.
    eexists. split. { unfold de_jws. cbv zeta. use E. use E0. rewrite H4. reflexivity. }
    unfold same_jws. cbn [js_payload js_signature js_signatures]. auto.
Qed.
Lemma jwe_reads : forall R j, drt_ok R -> num_wf j -> freads (de_jwe R j) (jwe_text R j) same_jwe.
Proof.
  intros R j HR Hw. destruct j as [| | | | |es]; try (split; [discriminate|intros v [es [H _]]; discriminate]).
  assert (HS : forall k, In k ["header"; "encrypted_key"] -> sees [] (JObj es) k (member (rest_of jwe_fields es) k)).
  { intros k Hk. apply member_rest_sees. intros HB. repeat (destruct Hk as [<-|Hk]; [repeat (destruct HB as [HB|HB]; [discriminate|]); destruct HB|]). destruct Hk. }
  pose proof (flattened_reads _ _ _ _ (recipient_members_reads (bf := true) R [] (JObj es) _ HR HS)) as [F1 F2].
  pose proof (protected_freads R [] (JObj es) _ HR (member_sees [] es "protected")) as [P1 P2].
  pose proof (buffered_iff R jwe_fields es Hw) as HB. clear HS. split.
  - intros v H. unfold de_jwe in H. cbv zeta in H. chain H. destruct (forallb _ _) eqn:EF; [|discriminate]. apply some_inj in H. subst v.
    exists es. cbn [je_protected je_unprotected je_recipient je_recipients je_ciphertext je_iv je_tag]. split; [reflexivity|].
    conj; try sound; [auto|exact F1|now apply HB].
  - intros [a b c d e f g] [es' [HE [H1 [H2 [H3 [H4 [H5 [H6 [H7 H8]]]]]]]]]. injection HE as <-.
    cbn [je_protected je_unprotected je_recipient je_recipients je_ciphertext je_iv je_tag] in *.
    apply P2 in H1. destruct H1 as [a' [EA SA]]. comp H2. comp H4. comp H5. comp H6. comp H7. apply HB in H8. apply F2 in H3.
    eexists. split. { unfold de_jwe. cbv zeta. use EA. use E. use E0. use E1. use E2. use E3. rewrite H8. reflexivity. }
    unfold same_jwe. cbn [je_protected je_unprotected je_recipient je_recipients je_ciphertext je_iv je_tag]. auto 10.
Qed.

(** ** Texts *)

Lemma text_reads : forall A (de : json -> option A) (P : json -> A -> Prop) S,
  (forall j, num_wf j -> freads (de j) (P j) S) ->
  forall s, freads (let! j := parse s in de j) (fun v => exists j, document s j /\ P j v) S.
Proof.
  intros A de P S H s. split.
  - intros v E. apply obind_some in E. destruct E as [j [EP E]]. exists j. split; [now apply document_iff|].
    apply (H j); [eapply parse_num_wf; eauto|exact E].
  - intros v [j [HD HP]]. apply document_iff in HD. rewrite HD. cbn [obind]. apply (H j); [eapply parse_num_wf; eauto|exact HP].
Qed.

(** ** Forwards *)

Lemma bytes_list_reader : reader de_bytes (fun x b => list_of (natural 255) x (map N_of_ascii (list_ascii_of_string b))) eq.
Proof.
  pose proof (reader_exact _ _ _ (list_eq _ _ _ (natural_reader 255))) as HL.
  apply exact_reader. intros x v. unfold de_bytes, de_u8. split.
  - intros H. destruct (de_vec (de_uint 255) x) as [l|] eqn:E; [|discriminate]. apply some_inj in H. subst v.
    apply HL in E. replace (map N_of_ascii (list_ascii_of_string (string_of_list_ascii (map chr l)))) with l; [exact E|].
    rewrite list_ascii_of_string_of_list_ascii, map_map. destruct E as [xs [_ F]]. symmetry. clear - F. induction F as [|a n xs l [t [_ [_ [_ [_ Hn]]]]] F IH]; [reflexivity|].
    cbn [map]. rewrite IH. f_equal. unfold chr. apply N_ascii_embedding. lia.
  - intros H. apply HL in H. rewrite H. f_equal. rewrite map_map. rewrite <- (string_of_list_ascii_of_string v) at 2. f_equal.
    rewrite <- (map_id (list_ascii_of_string v)) at 2. apply map_ext. intros a. unfold chr. apply ascii_N_embedding.
Qed.
#[export] Hint Resolve bytes_list_reader : rd.
Lemma mediated_reader : reader de_mediated mediated_text eq.
Proof.
  intros j. split.
  - intros v H. unfold de_mediated in H. apply obind_some in H. destruct H as [g [Hg H]]. cbn beta in H.
    apply view_sees in Hg; [|nodup]. destruct Hg as [HL HS]. chain H. apply some_inj in H. subst v. unfold mediated_text. cbn [md_next md_payload]. conj; [exact HL|sound|].
    eapply dreq_sound; [exact bytes_list_reader|see|eassumption].
  - intros [u i] [HL [H1 H2]]. cbn [md_next md_payload] in *. destruct (struct_sees _ _ HL) as [g [Hg HS]]; [nodup|].
    comp H1. eapply dreq_comp in H2; [|exact bytes_list_reader|see]. destruct H2 as [w [E2 <-]]. eexists. split; [|reflexivity]. unfold de_mediated. use Hg. use E. use E2. reflexivity.
Qed.

(** ** The same for all environments with the same numbers *)

Lemma reads_ext : forall R R', (forall t t', num_reads R t t' -> num_reads R' t t') -> forall j v, reads R j v -> reads R' j v.
Proof.
  intros R R' HN. apply (json_raw_ind (fun j => forall v, reads R j v -> reads R' j v)).
  - intros v H. inversion H; subst. constructor.
  - intros b v H. inversion H; subst. constructor.
  - intros t v H. inversion H; subst. constructor. auto.
  - intros e s v H. inversion H; subst. constructor.
  - intros l IH v H. inversion H as [| | | |? l' F| |]; subst. constructor. clear H. induction F as [|a b xs ys H1 F IHF]; constructor.
    + inversion IH; subst. auto.
    + apply IHF. now inversion IH.
  - intros l IH IR v H. inversion H as [| | | | |? e1 P1 S1 B1 C1 D1|e s j ? E1 N1 R1]; subst.
    2: { apply (rd_raw R' e s j); [exact E1|exact N1|]. apply document_iff in E1. exact (IR s j eq_refl E1 v R1). }
    rewrite Forall_forall in IH. constructor; try assumption.
    + intros k v Hv. destruct (B1 k v Hv) as [j [Hj Hr]]. exists j. split; [exact Hj|]. apply last_binding_In in Hj. exact (IH (k, j) Hj v Hr).
    + intros kv Hkv. destruct (D1 kv Hkv) as [v Hv]. exists v. now apply IH.
Qed.
Lemma readable_ext : forall R R', (forall t t', num_reads R t t' -> num_reads R' t t') -> forall j, readable R j -> readable R' j.
Proof.
  intros R R' HN. apply (json_rect2 (fun j => readable R j -> readable R' j)); intros; try constructor.
  - inversion H; subst. econstructor. eauto.
  - rewrite Forall_forall in H. inversion H0; subst. intros x Hx. auto.
  - rewrite Forall_forall in H. inversion H0; subst. intros x Hx. apply H; auto.
Qed.
Lemma message_text_ext : forall R R', (forall t t', num_reads R t t' -> num_reads R' t t') -> forall j m, message_text R j m -> message_text R' j m.
Proof.
  intros R R' HN j m [es [-> [H1 [[x [Hx [HX1 HX2]]] [H3 [H4 [H5 [H6 H7]]]]]]]]. exists es. split; [reflexivity|]. split; [exact H1|]. split.
  { exists x. split; [exact Hx|]. split; [exact HX1|]. eapply reads_ext; eauto. }
  split; [exact H3|]. split; [exact H4|]. split; [exact H5|]. split; [|exact H7]. intros k y Hy Hk. destruct (H6 k y Hy Hk) as [G1 G2].
  split; [exact G1|]. eapply readable_ext; eauto.
Qed.
