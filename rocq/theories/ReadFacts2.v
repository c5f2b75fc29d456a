(** The decoders of the structs read exactly what SpecDecode describes. *)

From Coq Require Import Ascii String Arith NArith List Bool Permutation Lia.
From Verif Require Import Bytes BytesFacts Base64 Utf8 Json JsonFacts Value ValueFacts Types Serde SerdeFacts Spec SpecFacts SpecText SpecJson
  SpecDecode GrammarFacts BodyFacts DecodeFacts CodecFacts ReadFacts.
Import ListNotations.
Local Open Scope string_scope.

(** ** One field at a time *)

Lemma dreq_sound : forall A (f : json -> option A) P S fs j k x v, reader f P S -> sees fs j k x -> dreq f x = Some v -> required fs j k P v.
Proof. intros A f P S fs j k x v H1 H2. now apply (dreq_freads _ _ _ _ _ _ _ _ H1 H2). Qed.
Lemma dreq_comp : forall A (f : json -> option A) P S fs j k x v, reader f P S -> sees fs j k x -> required fs j k P v ->
  exists v', dreq f x = Some v' /\ S v v'.
Proof. intros A f P S fs j k x v H1 H2. now apply (dreq_freads _ _ _ _ _ _ _ _ H1 H2). Qed.
Lemma dopt_sound : forall A (f : json -> option A) P S fs j k x v, reader f P S -> sees fs j k x -> dopt f x = Some v -> optional fs j k P v.
Proof. intros A f P S fs j k x v H1 H2. now apply (dopt_freads _ _ _ _ _ _ _ _ H1 H2). Qed.
Lemma dopt_comp : forall A (f : json -> option A) P S fs j k x v, reader f P S -> sees fs j k x -> optional fs j k P v ->
  exists v', dopt f x = Some v' /\ orel S v v'.
Proof. intros A f P S fs j k x v H1 H2. now apply (dopt_freads _ _ _ _ _ _ _ _ H1 H2). Qed.
Lemma dopt_comp_eq : forall A (f : json -> option A) P fs j k x v, reader f P eq -> sees fs j k x -> optional fs j k P v ->
  exists v', dopt f x = Some v' /\ v = v'.
Proof. intros A f P fs j k x v H1 H2. now apply (dopt_eq _ _ _ _ _ _ _ H1 H2). Qed.
Lemma ddef_sound : forall A (f : json -> option A) P d fs j k x v, reader f P eq -> sees fs j k x -> ddef d f x = Some v -> defaulted fs j k P d v.
Proof. intros A f P d fs j k x v H1 H2. now apply (ddef_freads _ _ _ _ d _ _ _ _ H1 eq_refl H2). Qed.
Lemma ddef_comp : forall A (f : json -> option A) P d fs j k x v, reader f P eq -> sees fs j k x -> defaulted fs j k P d v ->
  exists v', ddef d f x = Some v' /\ v = v'.
Proof. intros A f P d fs j k x v H1 H2. now apply (ddef_freads _ _ _ _ d _ _ _ _ H1 eq_refl H2). Qed.

Lemma struct_sees : forall fs j, struct_like fs j -> NoDup fs -> exists g, view fs j = Some g /\ forall k, In k fs -> sees fs j k (g k).
Proof. intros fs j HL HD. destruct (struct_view _ _ HL) as [g Hg]. exists g. split; [exact Hg|]. now apply view_sees. Qed.

Lemma u64_reader : reader de_u64 u64 eq.
Proof. exact (natural_reader u64_max). Qed.

Create HintDb rd.
#[export] Hint Resolve text_reader u64_reader message_type_reader key_ops_reader key_algorithm_reader : rd.
#[export] Hint Resolve list_eq | 1 : rd.
#[export] Hint Resolve list_reader | 5 : rd.
#[export] Hint Resolve map_reader : rd.

(** Decompose a successful chain of [let!]. *)
Ltac chain H := repeat (apply obind_some in H; let a := fresh "a" in let E := fresh "E" in destruct H as [a [E H]]; cbn beta in H).
Ltac see := first [apply member_sees | apply member_rest_sees; cbn; intuition discriminate | match goal with HS : forall k, In k _ -> sees _ _ k _ |- _ => apply HS; cbn; tauto end].
Ltac sound := first [eapply dreq_sound | eapply dopt_sound | eapply ddef_sound]; [solve [eauto with rd] | see | eassumption].
Ltac comp H :=
  let w := fresh "w" in let E := fresh "E" in let S := fresh "S" in
  first [eapply dreq_comp in H; [|solve [eauto with rd]|see]
        | eapply dopt_comp_eq in H; [|solve [eauto with rd]|see]
        | eapply dopt_comp in H; [|solve [eauto with rd]|see]
        | eapply ddef_comp in H; [|solve [eauto with rd]|see]];
  destruct H as [w [E S]]; try subst w.
Ltac conj := repeat match goal with |- _ /\ _ => split end.
Ltac use E := rewrite E; clear E; cbn [obind].

Lemma claims_reader : reader de_prior claims_text eq.
Proof.
  intros j. split.
  - intros v H. unfold de_prior in H. apply obind_some in H. destruct H as [g [Hg H]]. cbn beta in H.
    apply view_sees in Hg; [|nodup]. destruct Hg as [HL HS]. chain H. apply some_inj in H. subst v. unfold claims_text. cbn. conj; [exact HL|sound|sound].
  - intros [u i] [HL [H1 H2]]. cbn in *. destruct (struct_sees _ _ HL) as [g [Hg HS]]; [nodup|].
    comp H1. comp H2. eexists. split; [|reflexivity]. unfold de_prior. use Hg. use E. use E0. reflexivity.
Qed.
Lemma epk_reader : reader de_epk epk_text eq.
Proof.
  intros j. split.
  - intros v H. unfold de_epk in H. apply obind_some in H. destruct H as [g [Hg H]]. cbn beta in H.
    apply view_sees in Hg; [|nodup]. destruct Hg as [HL HS]. chain H. apply some_inj in H. subst v. unfold epk_text. cbn. conj; [exact HL|sound..].
  - intros [a b c d] [HL [H1 [H2 [H3 H4]]]]. cbn in *. destruct (struct_sees _ _ HL) as [g [Hg HS]]; [nodup|].
    comp H1. comp H2. comp H3. comp H4. eexists. split; [|reflexivity]. unfold de_epk. use Hg. use E. use E0. use E1. use E2. reflexivity.
Qed.
#[export] Hint Resolve claims_reader epk_reader : rd.

Lemma jwk_reader : forall {bf} R, drt_ok R -> reader (de_jwk R bf) (jwk_text bf) same_jwk.
Proof.
  intros bf R HR j. split.
  - intros v H. destruct j as [| | | | |es]; try discriminate. unfold de_jwk in H. cbv zeta in H. chain H. apply some_inj in H. subst v.
    exists es. cbn [jk_kty jk_use jk_crv jk_key_ops jk_alg jk_kid jk_epk jk_other]. split; [reflexivity|]. conj; try sound.
    eapply (collected_freads _ R de_string); [exact HR|exact text_reader|eassumption].
  - intros [a b c d e f g h] [es [-> [H1 [H2 [H3 [H4 [H5 [H6 [H7 H8]]]]]]]]]. cbn [jk_kty jk_use jk_crv jk_key_ops jk_alg jk_kid jk_epk jk_other] in *.
    comp H1. comp H2. comp H3. comp H4. comp H5. comp H6. comp H7.
    apply (collected_freads _ R de_string) in H8; [|exact HR|exact text_reader]. destruct H8 as [h' [EH SH]].
    eexists. split. { unfold de_jwk. cbv zeta. use E. use E0. use E1. use E2. use E3. use E4. use E5. change jwk_fields with jwk_names. use EH. reflexivity. }
    unfold same_jwk. cbn [jk_kty jk_use jk_crv jk_key_ops jk_alg jk_kid jk_epk jk_other]. auto 10.
Qed.
#[export] Hint Resolve jwk_reader : rd.

Lemma jwm_members_reads : forall {bf} R fs j g, drt_ok R -> (forall k, In k jwm_names -> sees fs j k (g k)) ->
  freads (de_jwm_from R bf g) (jwm_members bf fs j) same_header.
Proof.
  intros bf R fs j g HR HS. split.
  - intros v H. unfold de_jwm_from in H. chain H. apply some_inj in H. subst v. unfold jwm_members.
    cbn [jh_typ jh_enc jh_kid jh_skid jh_alg jh_jku jh_jwk jh_epk jh_cty]. conj; sound.
  - intros [a b c d e f h i l] [H1 [H2 [H3 [H4 [H5 [H6 [H7 [H8 H9]]]]]]]].
    cbn [jh_typ jh_enc jh_kid jh_skid jh_alg jh_jku jh_jwk jh_epk jh_cty] in *.
    comp H1. comp H2. comp H3. comp H4. comp H5. comp H6. comp H7. comp H8. comp H9.
    eexists. split. { unfold de_jwm_from. use E. use E0. use E1. use E2. use E3. use E4. use E5. use E6. use E7. reflexivity. }
    unfold same_header. cbn [jh_typ jh_enc jh_kid jh_skid jh_alg jh_jku jh_jwk jh_epk jh_cty]. auto 12.
Qed.
Lemma jwm_reader : forall {bf} R, drt_ok R -> reader (de_jwm R bf) (jwm_text bf) same_header.
Proof.
  intros bf R HR j. unfold de_jwm. split.
  - intros v H. apply obind_some in H. destruct H as [g [Hg H]]. apply view_sees in Hg; [|nodup]. destruct Hg as [HL HS]. split; [exact HL|].
    eapply (jwm_members_reads R _ _ g HR HS); exact H.
  - intros v [HL H]. destruct (struct_sees _ _ HL) as [g [Hg HS]]; [nodup|].
    change jwm_fields with jwm_names. use Hg. now apply (jwm_members_reads R _ _ g HR HS).
Qed.
#[export] Hint Resolve jwm_reader : rd.

Lemma thread_reader : forall R, drt_ok R -> reader (de_thread R) thread_text same_thread.
Proof.
  intros R HR j. split.
  - intros v H. unfold de_thread in H. apply obind_some in H. destruct H as [g [Hg H]]. cbn beta in H.
    apply view_sees in Hg; [|nodup]. destruct Hg as [HL HS]. chain H. apply some_inj in H. subst v. unfold thread_text.
    cbn [th_thid th_pthid th_sender_order th_received_orders th_goal_code]. conj; [exact HL|sound..].
  - intros [a b c d e] [HL [H1 [H2 [H3 [H4 H5]]]]]. cbn [th_thid th_pthid th_sender_order th_received_orders th_goal_code] in *.
    destruct (struct_sees _ _ HL) as [g [Hg HS]]; [nodup|].
    comp H1. comp H2. comp H3. eapply dopt_comp in H4; [|apply map_reader; [exact HR|exact u64_reader]|see]. destruct H4 as [d' [E4 S4]]. comp H5.
    eexists. split. { unfold de_thread. use Hg. use E. use E0. use E1. use E4. use E2. reflexivity. }
    unfold same_thread. cbn [th_thid th_pthid th_sender_order th_received_orders th_goal_code]. auto 10.
Qed.
#[export] Hint Resolve thread_reader : rd.

Lemma recipient_members_reads : forall {bf} R fs j g, drt_ok R -> (forall k, In k ["header"; "encrypted_key"] -> sees fs j k (g k)) ->
  freads (de_recipient_from R bf g) (recipient_members bf fs j) same_recipient.
Proof.
  intros bf R fs j g HR HS. split.
  - intros v H. unfold de_recipient_from in H. chain H. apply some_inj in H. subst v. unfold recipient_members. cbn [rc_header rc_encrypted_key]. conj; sound.
  - intros [a b] [H1 H2]. cbn [rc_header rc_encrypted_key] in *. comp H1. comp H2.
    eexists. split. { unfold de_recipient_from. use E. use E0. reflexivity. }
    unfold same_recipient. cbn [rc_header rc_encrypted_key]. auto.
Qed.
Lemma recipient_reader : forall R, drt_ok R -> reader (de_recipient R) recipient_text same_recipient.
Proof.
  intros R HR j. unfold de_recipient. split.
  - intros v H. apply obind_some in H. destruct H as [g [Hg H]]. apply view_sees in Hg; [|nodup]. destruct Hg as [HL HS]. split; [exact HL|].
    eapply (recipient_members_reads R _ _ g HR HS); exact H.
  - intros v [HL H]. destruct (struct_sees _ _ HL) as [g [Hg HS]]; [nodup|].
    change recipient_fields with ["header"; "encrypted_key"]. use Hg. now apply (recipient_members_reads R _ _ g HR HS).
Qed.
#[export] Hint Resolve recipient_reader : rd.

Lemma attachment_data_reader : reader de_attachment_data attachment_data_text eq.
Proof.
  intros j. split.
  - intros v H. unfold de_attachment_data in H. apply obind_some in H. destruct H as [g [Hg H]]. cbn beta in H.
    apply view_sees in Hg; [|nodup]. destruct Hg as [HL HS]. chain H. apply some_inj in H. subst v. unfold attachment_data_text.
    cbn [ad_jws ad_hash ad_links ad_base64 ad_json]. conj; [exact HL|sound..].
  - intros [a b c d e] [HL [H1 [H2 [H3 [H4 H5]]]]]. cbn [ad_jws ad_hash ad_links ad_base64 ad_json] in *.
    destruct (struct_sees _ _ HL) as [g [Hg HS]]; [nodup|].
    comp H1. comp H2. comp H3. comp H4. comp H5.
    eexists. split; [|reflexivity]. unfold de_attachment_data. use Hg. use E. use E0. use E1. use E2. use E3. reflexivity.
Qed.
#[export] Hint Resolve attachment_data_reader : rd.
Lemma attachment_reader : reader de_attachment attachment_text eq.
Proof.
  intros j. split.
  - intros v H. unfold de_attachment in H. apply obind_some in H. destruct H as [g [Hg H]]. cbn beta in H.
    apply view_sees in Hg; [|nodup]. destruct Hg as [HL HS]. chain H. apply some_inj in H. subst v. unfold attachment_text.
    cbn [at_id at_description at_filename at_media_type at_format at_lastmod at_byte_count at_data]. conj; [exact HL|sound..].
  - intros [a b c d e f h i] [HL [H1 [H2 [H3 [H4 [H5 [H6 [H7 H8]]]]]]]].
    cbn [at_id at_description at_filename at_media_type at_format at_lastmod at_byte_count at_data] in *.
    destruct (struct_sees _ _ HL) as [g [Hg HS]]; [nodup|].
    comp H1. comp H2. comp H3. comp H4. comp H5. comp H6. comp H7. comp H8.
    eexists. split; [|reflexivity]. unfold de_attachment. use Hg. use E. use E0. use E1. use E2. use E3. use E4. use E5. use E6. reflexivity.
Qed.
#[export] Hint Resolve attachment_reader : rd.
