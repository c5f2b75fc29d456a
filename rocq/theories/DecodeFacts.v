(** What a successful decoding guarantees about the decoded value. *)

From Coq Require Import Ascii String Arith NArith List Bool Permutation Sorted Lia.
From Verif Require Import Bytes BytesFacts Base64 Base64Facts Utf8 Utf8Facts Json JsonFacts Value ValueFacts Types Serde SerdeFacts
  Message Envelope Spec SpecFacts.
Import ListNotations.
Local Open Scope string_scope.

(** Splitting a chain of [let!]. *)
Ltac obinv H :=
  repeat match type of H with
  | obind ?e _ = Some _ => let x := fresh "v" in let E := fresh "E" in destruct e as [x|] eqn:E; [cbn [obind] in H | discriminate H]
  end.

Lemma dreq_some : forall A (f : json -> option A) x a, dreq f x = Some a -> exists j, x = Some (Got j) /\ f j = Some a.
Proof. intros A f [[| |j]|] a H; try discriminate. exists j. now split. Qed.
Lemma dopt_some : forall A (f : json -> option A) x a, dopt f x = Some (Some a) -> exists j, x = Some (Got j) /\ f j = Some a.
Proof.
  intros A f [[| |j]|] a H; try discriminate. exists j. split; [reflexivity|]. cbn in H.
  destruct j; try discriminate; destruct (f _); try discriminate; now injection H as <-.
Qed.
Lemma ddef_some : forall A d (f : json -> option A) x a, ddef d f x = Some a -> a = d \/ exists j, x = Some (Got j) /\ f j = Some a.
Proof. intros A d f [[| |j]|] a H; try discriminate; cbn in H; try (injection H as <-; now left). right. exists j. now split. Qed.

Lemma occ_In : forall k es j, In j (occ k es) -> In (k, j) es.
Proof.
  intros k es j H. unfold occ in H. apply in_map_iff in H. destruct H as [[k' j'] [<- H]]. apply filter_In in H.
  destruct H as [H E]. apply String.eqb_eq in E. cbn in *. now subst.
Qed.
Lemma member_In : forall es k j, member es k = Some (Got j) -> In (k, j) es.
Proof.
  intros es k j H. unfold member in H. destruct (occ k es) as [|x [|y l]] eqn:E; try discriminate. injection H as ->.
  apply occ_In. rewrite E. now left.
Qed.

(** All values a field accessor can return satisfy [P]. *)
Definition gall (P : json -> Prop) (g : string -> option fld) : Prop := forall k j, g k = Some (Got j) -> P j.

Lemma gall_member : forall (P : json -> Prop) es, ents_all P es -> gall P (member es).
Proof.
  intros P es H k j Hk. apply member_In in Hk. unfold ents_all in H. rewrite Forall_forall in H. apply (H (k, j) Hk).
Qed.
Lemma ents_utf8_all : forall es, ents_utf8 es -> ents_all jutf8 es.
Proof. intros es H. eapply Forall_impl; [|exact H]. intros a Ha. apply Ha. Qed.
Lemma gall_view : forall names j g, view names j = Some g -> jutf8 j -> gall jutf8 g.
Proof.
  intros names j g H HU. destruct j as [| | | |l|es]; try discriminate; cbn [view] in H.
  - destruct (Nat.leb_spec (List.length l) (List.length names)); [|discriminate]. apply some_inj in H. subst g. intros k x Hk.
    destruct (nth_error l (index_of k names)) as [y|] eqn:E; [|discriminate]. injection Hk as <-. apply nth_error_In in E.
    apply jutf8_arr in HU. rewrite Forall_forall in HU. auto.
  - apply some_inj in H. subst g. apply gall_member. apply ents_utf8_all. apply jutf8_obj. exact HU.
Qed.

(** ** Strings *)

Lemma de_string_utf8 : forall j s, jutf8 j -> de_string j = Some s -> rust_string s.
Proof. intros j s H E. destruct j; try discriminate. injection E as <-. exact H. Qed.
Lemma dreq_string : forall g k s, gall jutf8 g -> dreq de_string (g k) = Some s -> rust_string s.
Proof. intros g k s H E. apply dreq_some in E. destruct E as [j [E1 E2]]. eapply de_string_utf8; eauto. Qed.
Lemma dopt_string : forall g k o, gall jutf8 g -> dopt de_string (g k) = Some o -> Forall rust_string (ostr o).
Proof.
  intros g k [s|] H E; [|constructor]. apply dopt_some in E. destruct E as [j [E1 E2]]. constructor; [|constructor].
  eapply de_string_utf8; eauto.
Qed.
Lemma dopt_flat : forall A (f : json -> option A) (st : A -> list string) g k o,
  (forall j a, jutf8 j -> f j = Some a -> Forall rust_string (st a)) ->
  gall jutf8 g -> dopt f (g k) = Some o -> Forall rust_string (oflat st o).
Proof.
  intros A f st g k [a|] Hf H E; [|constructor]. apply dopt_some in E. destruct E as [j [E1 E2]]. eapply Hf; eauto.
Qed.
Lemma de_vec_all : forall A (f : json -> option A) (P : A -> Prop) j l,
  (forall x a, jutf8 x -> f x = Some a -> P a) -> jutf8 j -> de_vec f j = Some l -> Forall P l.
Proof.
  intros A f P j l Hf HU E. destruct j as [| | | |xs|]; try discriminate. cbn in E. apply all_some_Forall2 in E.
  apply jutf8_arr in HU. revert HU. induction E; intros HU; [constructor|]. inversion HU; subst. constructor; eauto.
Qed.
Lemma de_vec_any : forall A (f : json -> option A) (P : A -> Prop) j l,
  (forall x a, f x = Some a -> P a) -> de_vec f j = Some l -> Forall P l.
Proof.
  intros A f P j l Hf E. destruct j as [| | | |xs|]; try discriminate. cbn in E. apply all_some_Forall2 in E.
  induction E; constructor; eauto.
Qed.

Lemma map_of_entries_In : forall V (es : list (string * V)) x, In x (map_of_entries es) -> In x es.
Proof.
  intros V es x. induction es as [|[k v] es IH] using rev_ind; [intros []|].
  rewrite map_of_entries_snoc. intros H. apply in_or_app.
  assert (G : forall (m : list (string * V)), In x (map_insert k v m) -> x = (k, v) \/ In x m).
  { induction m as [|[k' v'] m IHm]; cbn; [intuition|]. destruct (String.eqb_spec k k') as [->|]; cbn; intuition. }
  apply G in H. destruct H as [->|H]; [right; now left | left; auto].
Qed.

Lemma de_map_unique : forall V R (f : json -> option V) es m, drt_ok R -> de_map R f es = Some m -> unique_keys m.
Proof.
  intros V R f es m [_ HR] H. unfold de_map in H. destruct (all_some _) as [l|]; [|discriminate]. apply some_inj in H. subst m.
  eapply unique_perm; [apply Permutation_sym; apply HR|]. apply map_of_entries_NoDup.
Qed.
Lemma de_map_In : forall V R (f : json -> option V) es m k v, drt_ok R -> de_map R f es = Some m -> In (k, v) m ->
  exists j, In (k, j) es /\ f j = Some v.
Proof.
  intros V R f es m k v [_ HR] H HI. unfold de_map in H. destruct (all_some _) as [l|] eqn:E; [|discriminate].
  apply some_inj in H. subst m.
  apply (Permutation_in _ (HR V _)) in HI. apply map_of_entries_In in HI. apply all_some_Forall2 in E.
  induction E as [|[k' j'] [k2 v2] xs ys H1 H2 IH]; [inversion HI|]. cbn in H1. destruct HI as [HI|HI].
  - injection HI as -> ->. destruct (f j') eqn:Ej; [|discriminate]. cbn in H1. injection H1 as <- <-.
    exists j'. split; [now left | assumption].
  - destruct (IH HI) as [j [Hj1 Hj2]]. exists j. split; [now right | assumption].
Qed.
Lemma de_map_strings : forall R es m, drt_ok R -> ents_utf8 es -> de_map R de_string es = Some m -> Forall rust_string (map_strings m).
Proof.
  intros R es m HR HU H. unfold map_strings. apply Forall_flat_map. apply Forall_forall. intros [k v] HI.
  destruct (de_map_In _ _ _ _ _ _ _ HR H HI) as [j [H1 H2]]. unfold ents_utf8 in HU. rewrite Forall_forall in HU.
  destruct (HU _ H1) as [U1 U2]. constructor; [exact U1|]. constructor; [|constructor]. eapply de_string_utf8; eauto.
Qed.
Lemma rest_of_utf8 : forall ns es, ents_utf8 es -> ents_utf8 (rest_of ns es).
Proof. intros ns es H. unfold ents_utf8 in *. rewrite Forall_forall in *. intros x Hx. apply filter_In in Hx. now apply H. Qed.
Lemma rest_of_avoids : forall V R (f : json -> option V) ns es m, drt_ok R -> de_map R f (rest_of ns es) = Some m -> avoids ns m.
Proof.
  intros V R f ns es m HR H k Hk Hin. apply in_map_iff in Hk. destruct Hk as [[k' v] [E HI]]. cbn in E. subst k'.
  destruct (de_map_In _ _ _ _ _ _ _ HR H HI) as [j [H1 _]]. apply filter_In in H1. destruct H1 as [_ H1]. cbn in H1.
  apply smem_In in Hin. rewrite Hin in H1. discriminate.
Qed.
(** Names filtered out by an outer [rest_of] stay out. *)
Lemma de_map_keys : forall V R (f : json -> option V) es m k, drt_ok R -> de_map R f es = Some m -> In k (map fst m) -> In k (keys es).
Proof.
  intros V R f es m k HR H Hk. apply in_map_iff in Hk. destruct Hk as [[k' v] [E HI]]. cbn in E. subst k'.
  destruct (de_map_In _ _ _ _ _ _ _ HR H HI) as [j [H1 _]]. unfold keys. apply in_map_iff. now exists (k, j).
Qed.
Lemma rest_of_keys : forall ns es k, In k (keys (rest_of ns es)) -> In k (keys es) /\ ~ In k ns.
Proof.
  intros ns es k H. unfold keys in *. apply in_map_iff in H. destruct H as [x [<- H]]. apply filter_In in H.
  destruct H as [H1 H2]. split; [now apply in_map|]. intros G. apply smem_In in G. rewrite G in H2. discriminate.
Qed.

Lemma de_uint_bound : forall b j n, de_uint b j = Some n -> (n <= b)%N.
Proof.
  intros b j n H. destruct j as [| |t| | |]; try discriminate. cbn in H. destruct (tok_int t) as [[[] d]|]; try discriminate.
  destruct (N.leb_spec (dec_val 0 d) b); [|discriminate]. injection H as <-. assumption.
Qed.
Lemma dopt_u64_bound : forall x o, dopt de_u64 x = Some o -> opt_all is_u64 o.
Proof. intros x [n|] H; [|exact I]. apply dopt_some in H. destruct H as [j [_ H]]. apply de_uint_bound in H. exact H. Qed.

(** ** Per type *)

Lemma de_epk_strings : forall j e, jutf8 j -> de_epk j = Some e -> Forall rust_string (epk_strings e).
Proof.
  intros j e HU H. unfold de_epk in H. obinv H. apply some_inj in H. subst e. pose proof (gall_view _ _ _ E HU) as HG.
  unfold epk_strings. cbn. repeat (constructor; [eapply dreq_string; eauto|]). eapply dopt_string; eauto.
Qed.
Lemma de_jwk_rust : forall {bf} R j k, drt_ok R -> de_jwk R bf j = Some k -> rust_jwk k /\ jwk_plain k.
Proof.
  intros bf R j k HR H. destruct j; try discriminate. cbn [de_jwk] in H. obinv H. apply some_inj in H. subst k. split.
  - eapply de_map_unique; eauto.
  - exact (rest_of_avoids _ _ _ jwk_fields _ _ HR E6).
Qed.
Lemma de_jwk_strings : forall {bf} R j k, drt_ok R -> jutf8 j -> de_jwk R bf j = Some k -> Forall rust_string (jwk_strings k).
Proof.
  intros bf R j k HR HU H. destruct j; try discriminate. cbn [de_jwk] in H. obinv H. apply some_inj in H. subst k.
  apply jutf8_obj in HU. pose proof (gall_member _ _ (ents_utf8_all _ HU)) as HG.
  unfold jwk_strings. cbn. rewrite !Forall_app.
  repeat match goal with |- _ /\ _ => split end; try (eapply dopt_string; eauto).
  - eapply dopt_flat; [|exact HG|eassumption]. apply de_epk_strings.
  - eapply de_map_strings; [exact HR| |exact E6]. apply rest_of_utf8. exact HU.
Qed.
Lemma dopt_jwk_rust : forall {bf} R x o, drt_ok R -> dopt (de_jwk R bf) x = Some o -> opt_all rust_jwk o /\ opt_all jwk_plain o.
Proof.
  intros bf R x [k|] HR H; [|split; exact I]. apply dopt_some in H. destruct H as [j [_ H]]. cbn. eapply de_jwk_rust; eauto.
Qed.
Lemma de_jwm_from_rust : forall {bf} R g h, drt_ok R -> de_jwm_from R bf g = Some h ->
  opt_all rust_jwk (jh_jwk h) /\ opt_all rust_jwk (jh_epk h) /\ header_plain h.
Proof.
  intros bf R g h HR H. unfold de_jwm_from in H. obinv H. apply some_inj in H. subst h. unfold header_plain. cbn.
  destruct (dopt_jwk_rust _ _ _ HR E5). destruct (dopt_jwk_rust _ _ _ HR E6). auto.
Qed.
Lemma de_jwm_from_strings : forall {bf} R g h, drt_ok R -> gall jutf8 g -> de_jwm_from R bf g = Some h -> Forall rust_string (jwm_strings h).
Proof.
  intros bf R g h HR HG H. unfold de_jwm_from in H. obinv H. apply some_inj in H. subst h.
  unfold jwm_strings. cbn. rewrite !Forall_app.
  repeat match goal with |- _ /\ _ => split end; try (eapply dopt_string; eauto);
    (eapply dopt_flat; [|exact HG|eassumption]; intros; eapply de_jwk_strings; eauto).
Qed.
Lemma de_jwm_rust : forall {bf} R j h, drt_ok R -> jutf8 j -> de_jwm R bf j = Some h -> rust_header h /\ header_plain h.
Proof.
  intros bf R j h HR HU H. unfold de_jwm in H. obinv H. pose proof (gall_view _ _ _ E HU) as HG.
  destruct (de_jwm_from_rust _ _ _ HR H) as (H1 & H2 & H3). pose proof (de_jwm_from_strings _ _ _ HR HG H).
  unfold rust_header. auto.
Qed.
Lemma de_prior_strings : forall j p, jutf8 j -> de_prior j = Some p -> Forall rust_string (prior_strings p).
Proof.
  intros j p HU H. unfold de_prior in H. obinv H. apply some_inj in H. subst p. pose proof (gall_view _ _ _ E HU) as HG.
  unfold prior_strings. cbn. rewrite Forall_app. split; [eapply dopt_string; eauto|].
  constructor; [eapply dreq_string; eauto | constructor].
Qed.
Lemma de_thread_rust : forall R j t, drt_ok R -> de_thread R j = Some t -> rust_thread t.
Proof.
  intros R j t HR H. unfold de_thread in H. obinv H. apply some_inj in H. subst t. split; cbn.
  - eapply dopt_u64_bound; eauto.
  - destruct v3 as [m|]; [|exact I]. cbn. apply dopt_some in E3. destruct E3 as [x [_ Hx]].
    destruct x as [| | | | |es]; try discriminate. split; [eapply de_map_unique; eauto|].
    apply Forall_forall. intros [k n] HI. destruct (de_map_In _ _ _ _ _ _ _ HR Hx HI) as [y [_ Hy]].
    exact (de_uint_bound _ _ _ Hy).
Qed.
Lemma de_thread_strings : forall R j t, drt_ok R -> jutf8 j -> de_thread R j = Some t -> Forall rust_string (thread_strings t).
Proof.
  intros R j t HR HU H. unfold de_thread in H. obinv H. apply some_inj in H. subst t. pose proof (gall_view _ _ _ E HU) as HG.
  unfold thread_strings. cbn. constructor; [eapply dreq_string; eauto|]. constructor; [eapply dreq_string; eauto|].
  rewrite Forall_app. split; [|eapply dopt_string; eauto].
  eapply dopt_flat; [|exact HG|exact E3]. intros x m Ux Hx. destruct x as [| | | | |es]; try discriminate.
  apply Forall_forall. intros k Hk. apply (de_map_keys _ _ _ _ _ _ HR Hx) in Hk. unfold keys in Hk.
  apply in_map_iff in Hk. destruct Hk as [y [<- Hy]]. apply jutf8_obj in Ux. rewrite Forall_forall in Ux. apply Ux. exact Hy.
Qed.
Lemma de_didcomm_rust : forall R es d, drt_ok R -> de_didcomm R es = Some d ->
  unique_keys (dh_other d) /\ opt_all is_u64 (dh_created d) /\ opt_all is_u64 (dh_expires d) /\
  opt_all rust_thread (dh_thread d) /\ (forall k, In k (map fst (dh_other d)) -> In k (keys es) /\ ~ In k didcomm_fields).
Proof.
  intros R es d HR H. unfold de_didcomm in H. obinv H. apply some_inj in H. subst d. cbn.
  split; [eapply de_map_unique; eauto|]. split; [eapply dopt_u64_bound; eauto|]. split; [eapply dopt_u64_bound; eauto|]. split.
  - destruct v8 as [t|]; [|exact I]. apply dopt_some in E8. destruct E8 as [x [_ Hx]]. eapply de_thread_rust; eauto.
  - intros k Hk. apply (de_map_keys _ _ _ _ _ _ HR E9) in Hk. apply rest_of_keys in Hk. exact Hk.
Qed.
Lemma de_didcomm_strings : forall R es d, drt_ok R -> ents_utf8 es -> de_didcomm R es = Some d -> Forall rust_string (did_strings d).
Proof.
  intros R es d HR HU H. unfold de_didcomm in H. obinv H. apply some_inj in H. subst d.
  pose proof (gall_member _ _ (ents_utf8_all _ HU)) as HG.
  unfold did_strings. cbn. constructor; [eapply dreq_string; eauto|]. constructor; [eapply dreq_string; eauto|].
  rewrite !Forall_app. repeat match goal with |- _ /\ _ => split end; try (eapply dopt_string; eauto).
  - apply dreq_some in E3. destruct E3 as [j [E3 E3']]. eapply de_vec_all; [|eapply HG; exact E3|exact E3'].
    intros. eapply de_string_utf8; eauto.
  - eapply dopt_flat; [|exact HG|exact E7]. intros. eapply de_prior_strings; eauto.
  - eapply dopt_flat; [|exact HG|exact E8]. intros. eapply de_thread_strings; eauto.
  - eapply de_map_strings; [exact HR| |exact E9]. apply rest_of_utf8. exact HU.
Qed.
Lemma de_recipient_from_rust : forall {bf} R g r, drt_ok R -> de_recipient_from R bf g = Some r -> rust_jwk (rc_header r) /\ jwk_plain (rc_header r).
Proof.
  intros bf R g r HR H. unfold de_recipient_from in H. obinv H. apply some_inj in H. subst r. cbn.
  apply dreq_some in E. destruct E as [j [_ E]]. eapply de_jwk_rust; eauto.
Qed.
Lemma de_recipient_from_strings : forall {bf} R g r, drt_ok R -> gall jutf8 g -> de_recipient_from R bf g = Some r -> Forall rust_string (recipient_strings r).
Proof.
  intros bf R g r HR HG H. unfold de_recipient_from in H. obinv H. apply some_inj in H. subst r. unfold recipient_strings. cbn.
  rewrite Forall_app. split.
  - apply dreq_some in E. destruct E as [j [E E']]. eapply de_jwk_strings; eauto.
  - constructor; [eapply dreq_string; eauto|constructor].
Qed.
Lemma de_recipient_rust : forall R j r, drt_ok R -> de_recipient R j = Some r -> rust_jwk (rc_header r) /\ jwk_plain (rc_header r).
Proof. intros R j r HR H. unfold de_recipient in H. obinv H. eapply de_recipient_from_rust; eauto. Qed.
Lemma de_recipient_strings : forall R j r, drt_ok R -> jutf8 j -> de_recipient R j = Some r -> Forall rust_string (recipient_strings r).
Proof.
  intros R j r HR HU H. unfold de_recipient in H. obinv H. eapply de_recipient_from_strings; eauto. eapply gall_view; eauto.
Qed.
Lemma de_recipients_rust : forall R x o, drt_ok R -> dopt (de_vec (de_recipient R)) x = Some o ->
  opt_all (Forall (fun r => rust_jwk (rc_header r))) o /\ opt_all (Forall (fun r => jwk_plain (rc_header r))) o.
Proof.
  intros R x [l|] HR H; [|split; exact I]. apply dopt_some in H. destruct H as [j [_ H]]. cbn. split.
  - eapply de_vec_any; [|exact H]. intros y a Hy. now apply (de_recipient_rust R y a HR).
  - eapply de_vec_any; [|exact H]. intros y a Hy. now apply (de_recipient_rust R y a HR).
Qed.
Lemma de_attachment_data_strings : forall j a, jutf8 j -> de_attachment_data j = Some a ->
  Forall rust_string (ostr (ad_jws a) ++ ostr (ad_hash a) ++ ad_links a ++ ostr (ad_base64 a) ++ ostr (ad_json a))%list.
Proof.
  intros j a HU H. unfold de_attachment_data in H. obinv H. apply some_inj in H. subst a. pose proof (gall_view _ _ _ E HU) as HG.
  cbn. rewrite !Forall_app. repeat match goal with |- _ /\ _ => split end; try (eapply dopt_string; eauto).
  apply ddef_some in E2. destruct E2 as [->|[x [Ex E2]]]; [constructor|].
  eapply de_vec_all; [|eapply HG; exact Ex|exact E2]. intros. eapply de_string_utf8; eauto.
Qed.
Lemma de_attachment_rust : forall j a, de_attachment j = Some a -> opt_all is_u64 (at_byte_count a).
Proof. intros j a H. unfold de_attachment in H. obinv H. apply some_inj in H. subst a. cbn. eapply dopt_u64_bound; eauto. Qed.
Lemma de_attachment_strings : forall j a, jutf8 j -> de_attachment j = Some a -> Forall rust_string (attachment_strings a).
Proof.
  intros j a HU H. unfold de_attachment in H. obinv H. apply some_inj in H. subst a. pose proof (gall_view _ _ _ E HU) as HG.
  unfold attachment_strings. cbn. rewrite 6 Forall_app.
  repeat match goal with |- _ /\ _ => split end; try (eapply dopt_string; eauto).
  apply dreq_some in E7. destruct E7 as [x [Ex E7]]. eapply de_attachment_data_strings; [eapply HG; exact Ex|exact E7].
Qed.

(** A decoded message is a Rust value with plain names. *)
Record decoded (m : message) : Prop := {
  dc_rust : rust_message m;
  dc_names : avoids header_names (dh_other (m_did m));
  dc_header : header_plain (m_jwm m);
  dc_recipients : opt_all (Forall (fun r => jwk_plain (rc_header r))) (m_recipients m);
  dc_flags : flags_reset m;
}.

Lemma de_message_decoded : forall R j m, drt_ok R -> num_wf j -> jutf8 j -> de_message R j = Some m -> decoded m.
Proof.
  intros R j m HR HN HU H. destruct j as [| | | | |es]; try discriminate. cbn [de_message] in H. obinv H.
  destruct (forallb _ _) eqn:EB; [|discriminate]. obinv H. apply some_inj in H. subst m.
  apply jutf8_obj in HU. change (ents_utf8 es) in HU. pose proof (gall_member _ _ (ents_utf8_all _ HU)) as HG.
  pose proof (rest_of_utf8 message_fields _ HU) as HU1. pose proof (rest_of_utf8 jwm_fields _ HU1) as HU2.
  pose proof (gall_member _ _ (ents_utf8_all _ HU1)) as HG1.
  apply dreq_some in E0. destruct E0 as [jb [Eb E0]]. apply value_of_some in E0. destruct E0 as [Hd Hv].
  assert (HNb : num_wf jb).
  { apply member_In in Eb. apply num_wf_obj in HN. rewrite Forall_forall in HN. apply (HN (_, jb) Eb). }
  destruct (de_jwm_from_rust _ _ _ HR E2) as (J1 & J2 & J3).
  destruct (de_didcomm_rust _ _ _ HR E3) as (D1 & D2 & D3 & D4 & D5).
  destruct (de_recipients_rust _ _ _ HR E) as (R1 & R2).
  assert (HB : rust_value v0).
  { apply rust_value_intro; [eapply vof_wf; eauto | eapply vof_sorted; eauto]. }
  constructor; cbn [m_jwm m_did m_recipients m_body m_flat_jwe m_flat_jws m_attachments].
  - constructor; cbn [m_jwm m_did m_recipients m_body m_flat_jwe m_flat_jws m_attachments]; try assumption.
    + unfold message_strings. cbn [m_jwm m_did m_recipients m_body m_attachments]. rewrite !Forall_app.
      repeat match goal with |- _ /\ _ => split end.
      * eapply de_jwm_from_strings; eauto.
      * eapply de_didcomm_strings; eauto.
      * eapply (dopt_flat _ _ _ (member es)); [|exact HG|exact E]. intros x l Ux Hl. apply Forall_flat_map.
        eapply de_vec_all; [|exact Ux|exact Hl]. intros. eapply de_recipient_strings; eauto.
      * apply json_strings_utf8. eapply vof_utf8; [eapply HG; exact Eb|exact Hv].
      * apply ddef_some in E1. destruct E1 as [->|[x [Ex E1]]]; [constructor|]. apply Forall_flat_map.
        eapply de_vec_all; [|eapply HG; exact Ex|exact E1]. intros. eapply de_attachment_strings; eauto.
    + apply ddef_some in E1. destruct E1 as [->|[x [Ex E1]]]; [constructor|].
      eapply de_vec_any; [|exact E1]. intros y a. apply de_attachment_rust.
  - intros k Hk Hin. destruct (D5 k Hk) as [K1 K2]. apply rest_of_keys in K1. destruct K1 as [K1 K3].
    apply rest_of_keys in K1. destruct K1 as [_ K4]. apply header_names_incl in Hin. unfold msg_reserved in Hin.
    apply in_app_or in Hin. destruct Hin as [Hin|Hin]; [contradiction|]. apply in_app_or in Hin. tauto.
  - assumption.
  - assumption.
  - split; reflexivity.
Qed.

Lemma message_from_str_decoded : forall R t m, drt_ok R -> utf8_valid t = true -> message_from_str R t = Some m -> decoded m.
Proof.
  intros R t m HR HU H. unfold message_from_str in H. obinv H. eapply de_message_decoded; eauto.
  - eapply parse_num_wf; eauto.
  - eapply parse_utf8; eauto.
Qed.
Lemma message_from_slice_decoded : forall R t m, drt_ok R -> message_from_slice R t = Some m -> decoded m.
Proof.
  intros R t m HR H. unfold message_from_slice, parse_slice in H. destruct (utf8_valid t) eqn:HU; [|discriminate].
  eapply (message_from_str_decoded R t); eauto.
Qed.
Lemma decoded_sendable : forall E m, decoded m -> dh_to (m_did m) <> [] -> depth (m_body m) <= 126 -> stable (rt E 0) (m_body m) -> sendable E m.
Proof. intros E m [] H1 H2 H3. constructor; assumption. Qed.
(** A printed message that is read again has a body that is not nested too deeply. *)
Lemma printed_depth : forall R v m, decoded v -> message_from_str R (message_json v) = Some m -> depth (m_body v) <= 126.
Proof.
  intros R v m [HR HN HH HC _] H. destruct (ser_message_body v (rust_message_ok v HR HN HH HC)) as [es [ES EB]].
  unfold message_from_str, message_json in H. rewrite parse_print in H by (apply wf_ser_message, rust_value_wf, (rm_body _ HR)). cbn [obind] in H.
  rewrite ES in H. cbn [de_message] in H. obinv H. rewrite EB in E0. apply dreq_some in E0. destruct E0 as [x [Ex E0]]. injection Ex as <-.
  apply value_of_some in E0. destruct E0 as [E0 _]. exact E0.
Qed.
