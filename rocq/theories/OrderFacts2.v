(** What [receive] depends on: not on the order of members, and of recipient entries only on the key material. *)

From Coq Require Import Ascii String Arith NArith List Bool Permutation Lia.
From Verif Require Import Bytes BytesFacts Base64 Utf8 Json JsonFacts SpecJson GrammarFacts Value ValueFacts Types Serde Message Envelope Spec SpecFacts SpecText SpecKey SpecDecode
  CryptoLaws SerdeFacts BodyFacts PlainFacts PlainFacts2 SealFacts3 KeyFacts ReadFacts ReadFacts2 ReadFacts3 OrderFacts.
Import ListNotations.
Local Open Scope string_scope.

(** ** Recipient entries *)

Lemma decrypt_cek_material : forall E e e' sk r r' pk, jwe_get e jh_alg = jwe_get e' jh_alg -> jwe_get e jh_skid = jwe_get e' jh_skid ->
  same_material r r' -> decrypt_cek E e sk r pk = decrypt_cek E e' sk r' pk.
Proof.
  intros E e e' sk r r' pk HA HS [H1 [H2 [H3 H4]]]. unfold decrypt_cek. rewrite HA, HS, H2, H3, H4.
  destruct (jwe_get e' jh_alg); [|reflexivity]. cbn [oerr rbind]. destruct (jwe_get e' jh_skid); [|reflexivity]. cbn [oerr rbind].
  destruct (jk_epk (rc_header r)) as [a|], (jk_epk (rc_header r')) as [b|]; try discriminate; [|reflexivity]. cbn in H1. assert (HX : ep_x a = ep_x b) by congruence.
  cbn [oerr rbind]. now rewrite HX.
Qed.
Lemma find_cek_material : forall E e e' sk pk l l' acc, jwe_get e jh_alg = jwe_get e' jh_alg -> jwe_get e jh_skid = jwe_get e' jh_skid ->
  Forall2 same_material l l' -> find_cek E e sk pk acc l = find_cek E e' sk pk acc l'.
Proof.
  intros E e e' sk pk l l' acc HA HS F. revert acc. induction F as [|r r' l l' H F IH]; intros acc; [reflexivity|]. cbn [find_cek].
  rewrite (decrypt_cek_material E e e' sk r r' pk HA HS H). destruct (decrypt_cek E e' sk r' pk); [reflexivity|apply IH|reflexivity].
Qed.
Lemma decrypt_parts : forall R1 R2 text text' f key e e', jwe_from_slice R1 text = Some e -> jwe_from_slice R1 text' = Some e' ->
  je_protected e = je_protected e' -> je_ciphertext e = je_ciphertext e' -> je_iv e = je_iv e' -> je_tag e = je_tag e' ->
  decrypt R1 R2 text f key = decrypt R1 R2 text' f key.
Proof.
  intros R1 R2 text text' f key e e' H H' S1 S3 S4 S5. unfold decrypt. rewrite H, H'. cbn [oerr rbind]. unfold jwe_payload, jwe_iv. now rewrite S1, S3, S4, S5.
Qed.
Lemma receive_material : forall E text text' sk spk e e' e2 e2',
  jwe_from_str (rt E 1) text = Some e -> jwe_from_str (rt E 1) text' = Some e' ->
  jwe_get e jh_alg = jwe_get e' jh_alg -> jwe_get e jh_skid = jwe_get e' jh_skid -> orel (Forall2 same_material) (jwe_recipients e) (jwe_recipients e') ->
  jwe_from_slice (rt E 2) text = Some e2 -> jwe_from_slice (rt E 2) text' = Some e2' ->
  je_protected e2 = je_protected e2' -> je_ciphertext e2 = je_ciphertext e2' -> je_iv e2 = je_iv e2' -> je_tag e2 = je_tag e2' ->
  receive_jwe E text sk spk = receive_jwe E text' sk spk.
Proof.
  intros E text text' sk spk e e' e2 e2' H1 H1' HA HS HR H2 H2' P1 P2 P3 P4.
  assert (HD : forall f key, decrypt (rt E 2) (rt E 3) text f key = decrypt (rt E 2) (rt E 3) text' f key) by (intros; eapply decrypt_parts; eauto).
  unfold receive_jwe. rewrite H1, H1'. cbn [oerr rbind]. rewrite <- HA, <- HS.
  destruct (jwe_get e jh_alg) as [alg|] eqn:EA; [|reflexivity]. cbn [oerr rbind].
  match goal with |- rbind ?y _ = rbind ?y _ => destruct y as [pk| |]; [|reflexivity|reflexivity] end. cbn [rbind].
  destruct (arr32 sk); [|reflexivity|reflexivity]. cbn [rbind]. destruct (arr32 pk); [|reflexivity|reflexivity]. cbn [rbind].
  destruct (crypto_alg_of alg); [|reflexivity|reflexivity]. cbn [rbind].
  destruct (jwe_recipients e) as [l|], (jwe_recipients e') as [l'|]; cbn in HR; try contradiction; [|now rewrite HD].
  rewrite (find_cek_material E e e' sk spk l l'); [|congruence|congruence|exact HR]. destruct (cek_error _); [|reflexivity|reflexivity]. cbn [rbind]. now rewrite HD.
Qed.

(** ** Members of reordered documents *)

Definition frel (x y : option fld) : Prop := x = y \/ exists a b, x = Some (Got a) /\ y = Some (Got b) /\ reordered a b.

Lemma member_unique : forall es k x, unique_keys es -> In (k, x) es -> member es k = Some (Got x).
Proof. intros es k x HU H. apply (member_sees [] es k). constructor. now apply unique_only. Qed.
Lemma member_frel : forall es es' k, reordered (JObj es) (JObj es') -> frel (member es k) (member es' k).
Proof.
  intros es es' k HR. pose proof (obj_reordered _ _ HR) as [e2 [E HE]]. injection E as <-. destruct HE as [->|[HU [HU' [HA HB]]]]; [now left|].
  destruct (in_dec string_dec k (map fst es)) as [H|H].
  - apply in_map_iff in H. destruct H as [[k' x] [E H]]. cbn in E. subst k'. destruct (HA _ _ H) as [x' [Hx' R]]. right. exists x, x'.
    rewrite (member_unique _ _ _ HU H), (member_unique _ _ _ HU' Hx'). auto.
  - left. assert (H' : missing es' k).
    { intros G. apply in_map_iff in G. destruct G as [[k' x] [E G]]. cbn in E. subst k'. destruct (HB _ _ G) as [y [Hy _]]. apply H. apply in_map_iff. now exists (k, y). }
    transitivity (Some Absent); [|symmetry]; apply (member_sees []); now constructor.
Qed.
Lemma rest_frel : forall own es es' k, reordered (JObj es) (JObj es') -> ~ In k own -> frel (member (rest_of own es) k) (member (rest_of own es') k).
Proof. intros own es es' k HR H. pose proof (member_frel _ _ k HR) as F. unfold member in *. now rewrite !occ_rest_of by assumption. Qed.
Lemma view_frel : forall fs j j' g g' k, reordered j j' -> view fs j = Some g -> view fs j' = Some g' -> frel (g k) (g' k).
Proof.
  intros fs j j' g g' k HR H H'. destruct j as [| | | |l|es]; try discriminate.
  - destruct (arr_reordered _ _ HR) as [l' [-> F]]. cbn [view] in *. destruct (_ <=? _)%nat; [|discriminate]. destruct (_ <=? _)%nat; [|discriminate].
    apply some_inj in H, H'. subst g g'. destruct (nth_error l (index_of k fs)) as [x|] eqn:E.
    + destruct (Forall2_nth _ _ _ _ _ _ _ F E) as [y [-> R]]. right. exists x, y. auto.
    + left. apply nth_error_None in E. rewrite (Forall2_length' _ _ _ _ _ F) in E. apply nth_error_None in E. now rewrite E.
  - destruct (obj_reordered _ _ HR) as [es' [-> _]]. cbn [view] in *. apply some_inj in H, H'. subst g g'. now apply member_frel.
Qed.
Lemma protected_frel : forall R x y, frel x y -> de_protected R x = de_protected R y.
Proof.
  intros R x y [->|[a [b [-> [-> H]]]]]; [reflexivity|]. inversion H; subst; [reflexivity| |]; reflexivity.
Qed.

Lemma map_get_same : forall A f (a b : option jwm_header), (forall x y, same_header x y -> f x = f y :> option A) -> orel same_header a b -> obind a f = obind b f.
Proof. intros A f [a|] [b|] Hf H; cbn in *; try contradiction; [now apply Hf|reflexivity]. Qed.
Lemma fallback_same : forall A f (a a' b b' : option jwm_header), (forall x y, same_header x y -> f x = f y :> option A) ->
  orel same_header a a' -> orel same_header b b' -> fallback a b f = fallback a' b' f.
Proof.
  intros A f a a' b b' Hf H1 H2. unfold fallback. destruct a as [a|], a' as [a'|]; cbn in H1; try contradiction; destruct b as [b|], b' as [b'|]; cbn in H2; try contradiction;
    try rewrite (Hf _ _ H1); try rewrite (Hf _ _ H2); reflexivity.
Qed.
Lemma same_alg : forall x y, same_header x y -> jh_alg x = jh_alg y.
Proof. unfold same_header. tauto. Qed.
Lemma same_skid : forall x y, same_header x y -> jh_skid x = jh_skid y.
Proof. unfold same_header. tauto. Qed.
Lemma same_kid : forall x y, same_header x y -> jh_kid x = jh_kid y.
Proof. unfold same_header. tauto. Qed.

(** ** Encrypted envelopes *)

Lemma same_to_material : forall r r', unique_keys (jk_other (rc_header r)) -> same_recipient r r' -> same_material r r'.
Proof.
  intros r r' HU [[_ [_ [_ [_ [_ [_ [H1 H2]]]]]]] H3]. unfold same_material. rewrite H1. split; [reflexivity|].
  split; [now apply map_get_perm|]. split; [now apply map_get_perm|exact H3].
Qed.
Lemma recipient_unique : forall {bf} fs j r, recipient_members bf fs j r -> unique_keys (jk_other (rc_header r)).
Proof. intros bf fs j r [[x [_ [es [_ H]]]] _]. apply H. Qed.

Lemma jwe_material : forall R j e e', jwe_text R j e -> same_jwe e e' -> orel (Forall2 same_material) (jwe_recipients e) (jwe_recipients e').
Proof.
  intros R j e e' HT HS. destruct HT as [es [-> [_ [_ [HF [HL _]]]]]]. destruct HS as [_ [_ [S1 [S2 _]]]]. unfold jwe_recipients.
  destruct (je_recipients e) as [l|] eqn:EL, (je_recipients e') as [l'|]; cbn in S2; try contradiction.
  - cbn in HL |- *. destruct HL as [x [_ [_ [xs [-> F]]]]]. clear - S2 F. revert xs F. induction S2 as [|a b l l' H S IH]; intros xs F; [constructor|].
    inversion F as [|y ? ys ? Hy F']; subst. constructor; [|eauto]. apply same_to_material; [|exact H]. destruct Hy as [_ Hy]. eapply recipient_unique; eauto.
  - destruct (je_recipient e) as [r|], (je_recipient e') as [r'|]; cbn in S1; try contradiction; [|exact I]. constructor; [|constructor].
    apply same_to_material; [|exact S1]. cbn in HF. eapply recipient_unique; eauto.
Qed.
Lemma jwe_protected_ro : forall R es es' e e', reordered (JObj es) (JObj es') -> de_jwe R (JObj es) = Some e -> de_jwe R (JObj es') = Some e' -> je_protected e = je_protected e'.
Proof.
  intros R es es' e e' HR H H'. unfold de_jwe in H, H'. cbv zeta in H, H'. rewrite (protected_frel R _ _ (member_frel es es' "protected" HR)) in H.
  destruct (de_protected R (member es' "protected")) as [p|]; [|discriminate]. cbn [obind] in H, H'.
  repeat match type of H with obind ?x _ = _ => destruct x; [|discriminate]; cbn [obind] in H end.
  repeat match type of H' with obind ?x _ = _ => destruct x; [|discriminate]; cbn [obind] in H' end.
  destruct (forallb _ _); [|discriminate]. destruct (forallb _ _); [|discriminate]. apply some_inj in H, H'. now subst.
Qed.

Lemma reads_obj_jwe : forall R j e, de_jwe R j = Some e -> exists es, j = JObj es.
Proof. intros R j e H. destruct j; try discriminate. eauto. Qed.

Lemma jwe_ro : forall R text text' j j' e, drt_ok R -> parse text = Some j -> parse text' = Some j' -> reordered j j' -> jwe_from_str R text = Some e ->
  exists e', jwe_from_str R text' = Some e' /\ je_protected e = je_protected e' /\ same_jwe e e' /\ orel (Forall2 same_material) (jwe_recipients e) (jwe_recipients e').
Proof.
  intros R text text' j j' e HD HP HP' HR H. unfold jwe_from_str in *. rewrite HP in H. rewrite HP'. cbn [obind] in *.
  pose proof (jwe_reads R j HD (parse_num_wf _ _ HP)) as [S1 _]. pose proof (jwe_reads R j' HD (parse_num_wf _ _ HP')) as [_ S2].
  pose proof (S1 _ H) as HT. destruct (S2 _ (jwe_steady R _ _ _ HR HT)) as [e' [E' HS]]. exists e'. split; [exact E'|].
  split; [|split; [exact HS|eapply jwe_material; eauto]].
  destruct (reads_obj_jwe _ _ _ H) as [es ->], (reads_obj_jwe _ _ _ E') as [es' ->]. eapply jwe_protected_ro; eauto.
Qed.

Lemma receive_jwe_ro : forall E text text' j j' sk spk, env_ok E -> parse text = Some j -> parse text' = Some j' -> utf8_valid text = true -> utf8_valid text' = true -> reordered j j' ->
  receive_jwe E text sk spk = receive_jwe E text' sk spk.
Proof.
  intros E text text' j j' sk spk HE HP HP' HU HU' HR.
  assert (SL : forall R, jwe_from_slice R text = jwe_from_str R text) by (intros; unfold jwe_from_slice, jwe_from_str, parse_slice; now rewrite HU).
  assert (SL' : forall R, jwe_from_slice R text' = jwe_from_str R text') by (intros; unfold jwe_from_slice, jwe_from_str, parse_slice; now rewrite HU').
  destruct (jwe_from_str (rt E 1) text) as [e|] eqn:E1.
  2:{ unfold receive_jwe. rewrite E1. destruct (jwe_from_str (rt E 1) text') as [e'|] eqn:E1'; [|reflexivity].
      destruct (jwe_ro _ _ _ _ _ _ (env_drt E 1 HE) HP' HP (reordered_sym _ _ HR) E1') as [? [? _]]. congruence. }
  destruct (jwe_ro _ _ _ _ _ _ (env_drt E 1 HE) HP HP' HR E1) as [e' [E1' [PE [SE ME]]]].
  assert (HA : forall A f, (forall x y, same_header x y -> f x = f y :> option A) -> jwe_get e f = jwe_get e' f).
  { intros A f Hf. unfold jwe_get. apply fallback_same; [exact Hf| |]; apply SE. }
  destruct (jwe_from_str (rt E 2) text) as [e2|] eqn:E2.
  - destruct (jwe_ro _ _ _ _ _ _ (env_drt E 2 HE) HP HP' HR E2) as [e2' [E2' [PE2 [SE2 ME2]]]].
    assert (PP : je_ciphertext e2 = je_ciphertext e2' /\ je_iv e2 = je_iv e2' /\ je_tag e2 = je_tag e2') by (unfold same_jwe in SE2; tauto). destruct PP as [P1 [P2 P3]].
    apply (receive_material E text text' sk spk e e' e2 e2'); try assumption; try (now rewrite SL); try (now rewrite SL'); apply HA; [apply same_alg|apply same_skid].
  - assert (E2' : jwe_from_str (rt E 2) text' = None).
    { destruct (jwe_from_str (rt E 2) text') as [e2'|] eqn:E2'; [|reflexivity].
      destruct (jwe_ro _ _ _ _ _ _ (env_drt E 2 HE) HP' HP (reordered_sym _ _ HR) E2') as [? [? _]]. congruence. }
    assert (DN : forall f key, decrypt (rt E 2) (rt E 3) text f key = decrypt (rt E 2) (rt E 3) text' f key) by (intros; unfold decrypt; now rewrite SL, SL', E2, E2').
    unfold receive_jwe. rewrite E1, E1'. cbn [oerr rbind]. rewrite <- (HA _ _ same_alg), <- (HA _ _ same_skid).
    destruct (jwe_get e jh_alg) as [alg|] eqn:EA; [|reflexivity]. cbn [oerr rbind].
    match goal with |- rbind ?y _ = rbind ?y _ => destruct y as [pk| |]; [|reflexivity|reflexivity] end. cbn [rbind].
    destruct (arr32 sk); [|reflexivity|reflexivity]. cbn [rbind]. destruct (arr32 pk); [|reflexivity|reflexivity]. cbn [rbind].
    destruct (crypto_alg_of alg); [|reflexivity|reflexivity]. cbn [rbind].
    destruct (jwe_recipients e) as [l|], (jwe_recipients e') as [l'|]; cbn in ME; try contradiction; [|now rewrite DN].
    rewrite (find_cek_material E e e' sk spk l l'); [|now apply HA, same_alg|now apply HA, same_skid|exact ME].
    destruct (cek_error _); [|reflexivity|reflexivity]. cbn [rbind]. now rewrite DN.
Qed.

(** ** Signed envelopes *)

Definition close_signature (a b : signature) : Prop :=
  sg_protected a = sg_protected b /\ orel same_header (sg_header a) (sg_header b) /\ sg_signature a = sg_signature b.

Lemma close_get : forall A f a b, (forall x y, same_header x y -> f x = f y :> option A) -> close_signature a b -> sig_get a f = sig_get b f.
Proof.
  intros A f a b Hf [H1 [H2 _]]. unfold sig_get. rewrite H1. apply fallback_same; [exact Hf|exact H2|]. destruct (sg_protected b); cbn; [apply same_header_refl|exact I].
Qed.
Lemma check_entries_close : forall E p key l l', Forall2 close_signature l l' -> check_entries E p key l = check_entries E p key l'.
Proof.
  intros E p key l l' F. induction F as [|a b l l' H F IH]; [reflexivity|]. cbn [check_entries].
  assert (HC : check_entry E p key a = check_entry E p key b).
  { unfold check_entry. rewrite (close_get _ _ _ _ same_alg H). destruct H as [-> [_ ->]]. reflexivity. }
  rewrite HC. destruct (check_entry E p key b) as [[]| |]; [reflexivity|exact IH|reflexivity|reflexivity].
Qed.
Definition close_jws (a b : jws) : Prop :=
  js_payload a = js_payload b /\ same_result (Forall2 close_signature) (jws_entries a) (jws_entries b).

Lemma signature_from_close : forall {bf} R g g' s s', (forall k, frel (g k) (g' k)) -> de_signature_from R bf g = Some s -> de_signature_from R bf g' = Some s' -> sg_protected s = sg_protected s'.
Proof.
  intros bf R g g' s s' HF H H'. unfold de_signature_from in *. rewrite (protected_frel R _ _ (HF "protected")) in H.
  destruct (de_protected R (g' "protected")) as [p|]; [|discriminate]. cbn [obind] in H, H'.
  repeat match type of H with obind ?x _ = _ => destruct x; [|discriminate]; cbn [obind] in H end.
  repeat match type of H' with obind ?x _ = _ => destruct x; [|discriminate]; cbn [obind] in H' end. apply some_inj in H, H'. now subst.
Qed.
Lemma signature_close : forall R j j' s s', reordered j j' -> de_signature R j = Some s -> de_signature R j' = Some s' -> sg_protected s = sg_protected s'.
Proof.
  intros R j j' s s' HR H H'. unfold de_signature in *. apply obind_some in H, H'. destruct H as [g [Hg H]], H' as [g' [Hg' H']].
  eapply (signature_from_close R g g'); eauto. intros k. eapply view_frel; eauto.
Qed.
Lemma vec_close : forall R l l' a b, Forall2 reordered l l' -> de_vec (de_signature R) (JArr l) = Some a -> de_vec (de_signature R) (JArr l') = Some b -> Forall2 same_signature a b ->
  Forall2 close_signature a b.
Proof.
  intros R l l' a b F. revert a b. cbn [de_vec]. induction F as [|x y l l' H F IH]; intros a b H1 H2 S.
  - cbn in H1. apply some_inj in H1. subst a. inversion S. constructor.
  - cbn in H1, H2. destruct (de_signature R x) as [s|] eqn:E1; [|discriminate]. destruct (de_signature R y) as [s'|] eqn:E2; [|discriminate]. cbn in H1, H2.
    apply obind_some in H1, H2. destruct H1 as [a' [A1 H1]], H2 as [b' [B1 H2]]. apply some_inj in H1, H2. subst a b. inversion S; subst. constructor; [|eauto].
    split; [eapply signature_close; eauto|]. unfold same_signature in *. tauto.
Qed.
Lemma dopt_vec_arr : forall A (f : json -> option A) x l, dopt (de_vec f) x = Some (Some l) -> exists xs, x = Some (Got (JArr xs)) /\ de_vec f (JArr xs) = Some l.
Proof.
  intros A f x l H. destruct x as [[| |y]|]; try discriminate. destruct y as [| | | |xs|]; try discriminate. exists xs. split; [reflexivity|].
  cbn [dopt] in H. destruct (de_vec f (JArr xs)); [|discriminate]. congruence.
Qed.
Lemma jws_close : forall R es es' w w', reordered (JObj es) (JObj es') -> de_jws R (JObj es) = Some w -> de_jws R (JObj es') = Some w' -> same_jws w w' -> close_jws w w'.
Proof.
  intros R es es' w w' HR H H' [S1 [S2 S3]]. split; [exact S1|]. unfold de_jws in H, H'. cbv zeta in H, H'. chain H. chain H'.
  destruct (forallb _ _); [|discriminate]. destruct (forallb _ _); [|discriminate]. apply some_inj in H, H'. subst w w'. cbn [js_payload js_signature js_signatures] in *.
  unfold jws_entries. cbn [js_signature js_signatures].
  match goal with A : dopt _ (member es "signatures") = Some ?a, B : dopt _ (member es' "signatures") = Some ?b |- _ =>
    destruct a as [a|], b as [b|]; cbn in S3; try contradiction end.
  - constructor. match goal with A : dopt _ (member es "signatures") = _, B : dopt _ (member es' "signatures") = _ |- _ => apply dopt_vec_arr in A, B;
      destruct A as [xs [M1 A]], B as [ys [M2 B]] end.
    apply (vec_close R xs ys); [|assumption|assumption|exact S3]. destruct (member_frel es es' "signatures" HR) as [F|[x [y [F1 [F2 F]]]]].
    + rewrite M1, M2 in F. injection F as <-. clear. induction xs as [|y ys IH]; constructor; [constructor|exact IH].
    + rewrite M1 in F1. rewrite M2 in F2. injection F1 as <-. injection F2 as <-. apply arr_reordered in F. destruct F as [l' [EL F]]. now injection EL as <-.
  - destruct (de_signature_from R true (member (rest_of jws_fields es))) as [s|] eqn:Z1, (de_signature_from R true (member (rest_of jws_fields es'))) as [s'|] eqn:Z2;
      cbn in S2; try contradiction; constructor. constructor; [|constructor]. split; [|unfold same_signature in S2; tauto].
    unfold de_signature_from in *. rewrite (protected_frel R _ _ (rest_frel jws_fields es es' "protected" HR ltac:(cbn; intuition discriminate))) in Z1.
    destruct (de_protected R _) as [p|]; [|discriminate]. cbn [obind] in Z1, Z2.
    repeat match type of Z1 with obind ?x _ = _ => destruct x; [|discriminate]; cbn [obind] in Z1 end.
    repeat match type of Z2 with obind ?x _ = _ => destruct x; [|discriminate]; cbn [obind] in Z2 end. apply some_inj in Z1, Z2. now subst.
Qed.
Lemma reads_obj_jws : forall R j e, de_jws R j = Some e -> exists es, j = JObj es.
Proof. intros R j e H. destruct j; try discriminate. eauto. Qed.
Lemma jws_ro : forall R text text' j j' w, drt_ok R -> parse text = Some j -> parse text' = Some j' -> reordered j j' -> jws_from_str R text = Some w ->
  exists w', jws_from_str R text' = Some w' /\ close_jws w w'.
Proof.
  intros R text text' j j' w HD HP HP' HR H. unfold jws_from_str in *. rewrite HP in H. rewrite HP'. cbn [obind] in *.
  pose proof (jws_reads R j HD (parse_num_wf _ _ HP)) as [S1 _]. pose proof (jws_reads R j' HD (parse_num_wf _ _ HP')) as [_ S2].
  pose proof (S1 _ H) as HT. destruct (S2 _ (jws_steady R _ _ _ HR HT)) as [w' [E' HS]]. exists w'. split; [exact E'|].
  destruct (reads_obj_jws _ _ _ H) as [es ->], (reads_obj_jws _ _ _ E') as [es' ->]. eapply jws_close; eauto.
Qed.
Lemma jws_none_ro : forall R text text' j j', drt_ok R -> parse text = Some j -> parse text' = Some j' -> reordered j j' -> jws_from_str R text = None -> jws_from_str R text' = None.
Proof.
  intros R text text' j j' HD HP HP' HR H. destruct (jws_from_str R text') as [w|] eqn:E; [|reflexivity].
  destruct (jws_ro R text' text j' j w HD HP' HP (reordered_sym _ _ HR) E) as [? [? _]]. congruence.
Qed.
Lemma verify_ro : forall E k R2 text text' j j' key, env_ok E -> parse text = Some j -> parse text' = Some j' -> utf8_valid text = true -> utf8_valid text' = true -> reordered j j' ->
  verify E (rt E k) R2 text key = verify E (rt E k) R2 text' key.
Proof.
  intros E k R2 text text' j j' key HE HP HP' HU HU' HR. unfold verify.
  assert (SL : jws_from_slice (rt E k) text = jws_from_str (rt E k) text) by (unfold jws_from_slice, jws_from_str, parse_slice; now rewrite HU).
  assert (SL' : jws_from_slice (rt E k) text' = jws_from_str (rt E k) text') by (unfold jws_from_slice, jws_from_str, parse_slice; now rewrite HU').
  rewrite SL, SL'. destruct (jws_from_str (rt E k) text) as [w|] eqn:EW.
  - destruct (jws_ro _ _ _ _ _ _ (env_drt E k HE) HP HP' HR EW) as [w' [-> [H1 H2]]]. cbn [oerr rbind]. inversion H2 as [l l' F E1 E2|x E1 E2|E1 E2]; cbn [rbind]; [|reflexivity|reflexivity].
    rewrite H1, (check_entries_close E (js_payload w') key l l' F). reflexivity.
  - now rewrite (jws_none_ro _ _ _ _ _ (env_drt E k HE) HP HP' HR EW).
Qed.
Lemma verify_entries_ro : forall E text text' j j' given l l' i, env_ok E -> parse text = Some j -> parse text' = Some j' -> utf8_valid text = true -> utf8_valid text' = true -> reordered j j' ->
  Forall2 close_signature l l' -> verify_entries E i text given l = verify_entries E i text' given l'.
Proof.
  intros E text text' j j' given l l' i HE HP HP' HU HU' HR F. revert i. induction F as [|a b l l' H F IH]; intros i; [reflexivity|]. cbn [verify_entries].
  rewrite (close_get _ _ _ _ same_alg H), (close_get _ _ _ _ same_kid H). destruct (sig_get b jh_alg); [|apply IH].
  destruct (signing_key given (sig_get b jh_kid)) as [key| |]; cbn [rbind]; [|reflexivity|reflexivity].
  rewrite (verify_ro E _ _ text text' j j' key HE HP HP' HU HU' HR). destruct (verify E _ _ text' key); [reflexivity|apply IH|reflexivity].
Qed.

(** ** Messages *)

Lemma message_ro : forall R text text' j j' m, drt_ok R -> parse text = Some j -> parse text' = Some j' -> bodies j j' -> reordered j j' -> message_from_str R text = Some m ->
  exists m', message_from_str R text' = Some m' /\ same_message m m'.
Proof.
  intros R text text' j j' m HD HP HP' HO HR H. unfold message_from_str in *. rewrite HP in H. rewrite HP'. cbn [obind] in *.
  pose proof (message_reads R j HD (parse_num_wf _ _ HP)) as [S1 _]. pose proof (message_reads R j' HD (parse_num_wf _ _ HP')) as [_ S2].
  exact (S2 _ (message_steady R _ _ _ HO HR (S1 _ H))).
Qed.
Lemma message_none_ro : forall R text text' j j', drt_ok R -> parse text = Some j -> parse text' = Some j' -> bodies j j' -> reordered j j' -> message_from_str R text = None -> message_from_str R text' = None.
Proof.
  intros R text text' j j' HD HP HP' HO HR H. destruct (message_from_str R text') as [w|] eqn:E; [|reflexivity].
  destruct (message_ro R text' text j' j w HD HP' HP (bodies_sym _ _ HO) (reordered_sym _ _ HR) E) as [? [? _]]. congruence.
Qed.
Lemma receive_jws_ro : forall E text text' j j' given, env_ok E -> parse text = Some j -> parse text' = Some j' -> utf8_valid text = true -> utf8_valid text' = true -> bodies j j' -> reordered j j' ->
  receive_jws E text given = receive_jws E text' given.
Proof.
  intros E text text' j j' given HE HP HP' HU HU' HO HR. unfold receive_jws. destruct (message_from_str (rt E 5) text) as [m|] eqn:EM.
  - destruct (message_ro _ _ _ _ _ _ (env_drt E 5 HE) HP HP' HO HR EM) as [m' [-> [S1 [S2 [S3 [S4 S5]]]]]]. rewrite (same_alg _ _ S1), (same_kid _ _ S1).
    unfold get_body. now rewrite S4.
  - rewrite (message_none_ro _ _ _ _ _ (env_drt E 5 HE) HP HP' HO HR EM). destruct (jws_from_str (rt E 8) text) as [w|] eqn:EW.
    + destruct (jws_ro _ _ _ _ _ _ (env_drt E 8 HE) HP HP' HR EW) as [w' [-> [H1 H2]]]. inversion H2 as [l l' F E1 E2|x E1 E2|E1 E2]; cbn [rbind]; [|reflexivity|reflexivity].
      now rewrite (verify_entries_ro E text text' j j' given l l' 0 HE HP HP' HU HU' HR F).
    + now rewrite (jws_none_ro _ _ _ _ _ (env_drt E 8 HE) HP HP' HR EW).
Qed.
Lemma present_frel : forall x y, frel x y -> de_present x = de_present y.
Proof. intros x y [->|[a [b [-> [-> H]]]]]; [reflexivity|]. inversion H; subst; reflexivity. Qed.
Lemma unknown_ro : forall j j', reordered j j' -> de_unknown j = de_unknown j'.
Proof.
  intros j j' HR. unfold de_unknown. set (fs := ["signature"; "signatures"; "iv"]). destruct (view fs j) as [g|] eqn:EG.
  - assert (HG : exists g', view fs j' = Some g').
    { apply struct_view. eapply struct_like_ro; [exact HR|]. eapply view_sees; [|exact EG]. unfold fs. repeat constructor; cbn; intuition discriminate. }
    destruct HG as [g' EG']. rewrite EG'. cbn [obind]. now rewrite !(present_frel _ _ (view_frel fs j j' g g' _ HR EG EG')).
  - destruct (view fs j') as [g'|] eqn:EG'; [|reflexivity]. exfalso. assert (HG : exists g, view fs j = Some g).
    { apply struct_view. eapply struct_like_ro; [apply reordered_sym; exact HR|]. eapply view_sees; [|exact EG']. unfold fs. repeat constructor; cbn; intuition discriminate. }
    destruct HG. congruence.
Qed.
Lemma classify_ro : forall R text text' j j', drt_ok R -> parse text = Some j -> parse text' = Some j' -> bodies j j' -> reordered j j' -> get_message_type R text = get_message_type R text'.
Proof.
  intros R text text' j j' HD HP HP' HO HR. unfold get_message_type. rewrite HP, HP'. cbn [oerr rbind]. rewrite (unknown_ro j j' HR).
  destruct (de_unknown j') as [u|]; [|reflexivity]. cbn [oerr rbind]. destruct (un_iv u); [reflexivity|]. destruct (un_signatures u || un_signature u)%bool; [reflexivity|].
  destruct (message_from_str R text) as [m|] eqn:EM.
  - destruct (message_ro R text text' j j' m HD HP HP' HO HR EM) as [m' [-> [S1 _]]]. cbn. f_equal. apply S1.
  - now rewrite (message_none_ro R text text' j j' HD HP HP' HO HR EM).
Qed.
Lemma same_result_refl : forall A (S : A -> A -> Prop) x, (forall y, S y y) -> same_result S x x.
Proof. intros A S [a|e|] H; constructor; apply H. Qed.
Lemma receive_ro : forall E text text' j j' sk pk spk, env_ok E -> parse text = Some j -> parse text' = Some j' -> utf8_valid text = true -> utf8_valid text' = true -> bodies j j' -> reordered j j' ->
  same_result same_message (receive E text sk pk spk) (receive E text' sk pk spk).
Proof.
  intros E text text' j j' sk pk spk HE HP HP' HU HU' HO HR. unfold receive. rewrite (classify_ro (rt E 0) text text' j j' (env_drt E 0 HE) HP HP' HO HR).
  destruct (get_message_type (rt E 0) text') as [t| |]; cbn [rbind]; try constructor. destruct (is_jwe_type t).
  - destruct (oerr sk _) as [k| |]; cbn [rbind]; try constructor. rewrite (receive_jwe_ro E text text' j j' k pk HE HP HP' HU HU' HR).
    apply same_result_refl. apply same_message_refl.
  - cbn [rbind]. rewrite (classify_ro (rt E 4) text text' j j' (env_drt E 4 HE) HP HP' HO HR). destruct (get_message_type (rt E 4) text') as [t4| |]; cbn [rbind]; try constructor.
    destruct (is_jws_type t4).
    + rewrite (receive_jws_ro E text text' j j' spk HE HP HP' HU HU' HO HR). apply same_result_refl. apply same_message_refl.
    + cbn [rbind]. destruct (message_from_str (rt E 9) text) as [m|] eqn:EM.
      * destruct (message_ro _ _ _ _ _ _ (env_drt E 9 HE) HP HP' HO HR EM) as [m' [-> S]]. now constructor.
      * rewrite (message_none_ro _ _ _ _ _ (env_drt E 9 HE) HP HP' HO HR EM). constructor.
Qed.
