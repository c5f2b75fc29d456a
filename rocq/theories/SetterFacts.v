(** Facts about builder calls, threads, attachments and invitations. *)

From Coq Require Import Ascii String Arith NArith List Bool Permutation Lia.
From Verif Require Import Bytes BytesFacts Base64 Base64Facts Utf8 Json JsonFacts Value Types Serde Message Attach Envelope
  Spec SpecOps BodyFacts CodecFacts.
Import ListNotations.
Local Open Scope string_scope.

Lemma ok_inj : forall A (a b : A), Ok a = Ok b -> a = b.
Proof. intros A a b H. now injection H. Qed.

(** ** The recipient list *)

Definition non_empty (s : string) : bool := negb (String.eqb s "").
Lemma position_empty_spec : forall l n, position_empty l = Some n ->
  filter non_empty (remove_at n l) = filter non_empty l /\ List.length l = S (List.length (remove_at n l)).
Proof.
  induction l as [|x l IH]; intros n H; [discriminate|]. cbn [position_empty] in H. destruct (String.eqb_spec x "") as [->|N].
  - injection H as <-. cbn. split; reflexivity.
  - destruct (position_empty l) as [p|] eqn:EP; [|discriminate]. injection H as <-. destruct (IH p eq_refl) as [H1 H2].
    cbn [remove_at filter List.length]. rewrite H1. split; [reflexivity|]. lia.
Qed.
Lemma position_empty_none : forall l, position_empty l = None -> filter non_empty l = l.
Proof.
  induction l as [|x l IH]; intros H; [reflexivity|]. cbn [position_empty] in H. destruct (String.eqb_spec x "") as [->|N]; [discriminate|].
  destruct (position_empty l) as [p|] eqn:EP; [discriminate|]. cbn [filter]. unfold non_empty at 1.
  destruct (String.eqb_spec x ""); [contradiction|]. cbn. now rewrite IH.
Qed.
Lemma remove_empties_filter : forall fuel l, List.length l < fuel -> remove_empties fuel l = filter non_empty l.
Proof.
  induction fuel as [|f IH]; intros l H; [lia|]. cbn [remove_empties]. destruct (position_empty l) as [a|] eqn:EP.
  - destruct (position_empty_spec _ _ EP) as [H1 H2]. rewrite IH by lia. exact H1.
  - symmetry. now apply position_empty_none.
Qed.
Lemma set_to_filter : forall m xs, set_to m xs = with_did m (dh_with_to (m_did m) (filter non_empty (dh_to (m_did m) ++ xs))).
Proof. intros m xs. unfold set_to. rewrite remove_empties_filter by lia. reflexivity. Qed.

Lemma filter_idem : forall A (f : A -> bool) l, filter f (filter f l) = filter f l.
Proof.
  intros A f l. induction l as [|x l IH]; [reflexivity|]. cbn. destruct (f x) eqn:E; [|exact IH]. cbn. rewrite E. now f_equal.
Qed.
Lemma set_to_twice : forall m xs ys, set_to (set_to m xs) ys = set_to m (xs ++ ys).
Proof.
  intros m xs ys. rewrite !set_to_filter. cbn [m_did with_did dh_to dh_with_to]. unfold with_did, dh_with_to; cbn. f_equal. f_equal.
  rewrite filter_app, filter_idem, <- filter_app. now rewrite app_assoc.
Qed.

(** ** Frame and last write *)

Ltac fld := intros; subst; cbn; repeat split; auto.
Lemma field_eq_refl : forall f m, field_eq f m m.
Proof. intros f m. destruct f; fld. Qed.
Lemma field_eq_trans : forall f a b c, field_eq f a b -> field_eq f b c -> field_eq f a c.
Proof. intros f a b c [A1 [A2 A3]] [B1 [B2 B3]]. destruct f; cbn in *; repeat split; congruence. Qed.

Lemma set_body_shape : forall R m t m', set_body R m t = Ok m' -> exists v, m' = with_body m v.
Proof. intros R m t m' H. apply set_body_iff in H. destruct H as [j [v [_ [_ [_ ->]]]]]. now exists v. Qed.
Lemma dh_reply_shape : forall d s, exists thid pthid th to, dh_reply_to d s = dh_with_to (dh_with_thread (dh_with_pthid (dh_with_thid d thid) pthid) th) to.
Proof.
  intros d s. unfold dh_reply_to. destruct (dh_thread s) as [t|].
  - destruct (is_implicit_reply t (dh_id s)).
    + exists (Some (th_thid t)), (dh_pthid d), (Some (thread_implicit_reply (th_thid t))). eexists. reflexivity.
    + exists (dh_thid s), (dh_pthid s), (dh_thread d). eexists. reflexivity.
  - exists (dh_thid s), (dh_pthid s), (dh_thread d). eexists. reflexivity.
Qed.
Lemma as_jwe_shape : forall rv m a k, exists kid, as_jwe rv m a k = with_jwm m (jh_with_kid (as_encrypted (m_jwm m) a) kid).
Proof.
  intros rv m a k. unfold as_jwe.
  assert (HN : exists kid, with_jwm m (as_encrypted (m_jwm m) a) = with_jwm m (jh_with_kid (as_encrypted (m_jwm m) a) kid)).
  { exists (jh_kid (m_jwm m)). now destruct a. }
  destruct k as [k|]; [eexists; reflexivity|]. destruct (dh_from (m_did m)) as [fr|]; [|exact HN].
  destruct (rv fr) as [doc|]; [|exact HN]. eexists. reflexivity.
Qed.

Ltac no_write H := cbn in H; destruct H; cbn; auto 20.
Lemma step_frame : forall E m o m' f, step E m o = Ok m' -> ~ In f (writes o) -> field_eq f m m'.
Proof.
  intros E m o m' f H HN. destruct o; cbn [step] in H;
    try (apply ok_inj in H; subst m');
    try (destruct f; try (exfalso; apply HN; cbn; tauto); now fld).
  - apply set_body_shape in H. destruct H as [v ->]. destruct f; try (exfalso; apply HN; cbn; tauto); now fld.
  - unfold set_kid. destruct (jh_kid (m_jwm m)); destruct f; try (exfalso; apply HN; cbn; tauto); now fld.
  - unfold add_header_field. destruct (String.eqb k ""); destruct f; try (exfalso; apply HN; cbn; tauto); now fld.
  - unfold reply_to. destruct (dh_reply_shape (m_did m) (m_did p)) as [x1 [x2 [x3 [x4 ->]]]]. destruct f; try (exfalso; apply HN; cbn; tauto); now fld.
  - destruct (as_jwe_shape (resolve E) m a key) as [kid ->]. destruct a, f; try (exfalso; apply HN; cbn; tauto); now fld.
  - unfold as_flat_jwe. destruct (as_jwe_shape (resolve E) (with_flat_jwe m true) a key) as [kid ->].
    destruct a, f; try (exfalso; apply HN; cbn; tauto); now fld.
Qed.

Lemma run_app : forall E ops1 ops2 m m', run E m (ops1 ++ ops2) = Ok m' <-> exists m1, run E m ops1 = Ok m1 /\ run E m1 ops2 = Ok m'.
Proof.
  intros E. induction ops1 as [|o r IH]; intros ops2 m m'; cbn [app run].
  - split; [intros H; now exists m | intros [m1 [H1 H2]]; apply ok_inj in H1; now subst].
  - destruct (step E m o) as [m2|e|]; [apply IH| |]; split; try discriminate; intros [m1 [H1 _]]; discriminate.
Qed.
Lemma run_frame : forall E ops m m' f, run E m ops = Ok m' -> (forall o, In o ops -> ~ In f (writes o)) -> field_eq f m m'.
Proof.
  intros E. induction ops as [|o r IH]; intros m m' f H HN; cbn [run] in H.
  - apply ok_inj in H. subst. apply field_eq_refl.
  - destruct (step E m o) as [m2|e|] eqn:ES; try discriminate. eapply field_eq_trans.
    + eapply step_frame; [exact ES|]. apply HN. now left.
    + apply IH; [exact H|]. intros o' Ho. apply HN. now right.
Qed.

Lemma jwe_leaves : forall E m a key m' f, m' = as_jwe (resolve E) m a key -> In f [FTyp; FAlg; FEnc; FKid] -> leaves E (OJwe a key) f m'.
Proof.
  intros E m a key m' f -> HW. destruct (as_jwe_shape (resolve E) m a key) as [kid HS].
  destruct HW as [<-|[<-|[<-|[<-|[]]]]]; cbn [leaves]; try (rewrite HS; now destruct a).
  destruct key as [k|]; [|exact I]. exists (b64_encode k). split; [apply b64_rfc|reflexivity].
Qed.
Lemma step_leaves : forall E m o m' f, step E m o = Ok m' -> In f (writes o) -> leaves E o f m'.
Proof.
  intros E m o m' f H HW. destruct o; cbn [step] in H; try (apply ok_inj in H; subst m');
    try (cbn in HW; repeat (destruct HW as [<-|HW]; [cbn; auto; fail|]); contradiction).
  - cbn in HW. destruct HW as [<-|[]]. cbn [leaves]. apply set_body_iff in H. destruct H as [j [v [H1 [_ [H2 ->]]]]]. now exists j.
  - cbn in HW. destruct HW as [<-|[]]. cbn [leaves]. unfold set_kid. now destruct (jh_kid (m_jwm m)).
  - cbn in HW. destruct HW as [<-|[]]. cbn. destruct (dh_thid (m_did p)) as [t|] eqn:ET; [left; now exists t|right; now split].
  - eapply jwe_leaves; [reflexivity|exact HW].
  - destruct f; try (cbn in HW; exfalso; repeat (destruct HW as [HW|HW]; [discriminate|]); exact HW);
      try (match goal with |- leaves _ _ ?g ?x => assert (HX : In g [FTyp; FAlg; FEnc; FKid]) by (cbn; tauto);
             exact (jwe_leaves E (with_flat_jwe m true) a key x g eq_refl HX) end).
    cbn. unfold as_flat_jwe. destruct (as_jwe_shape (resolve E) (with_flat_jwe m true) a key) as [kid ->]. now destruct a.
Qed.

(** [leaves] talks about the written field only. *)
Lemma leaves_field : forall E o f m m', In f (writes o) -> field_eq f m m' -> leaves E o f m -> leaves E o f m'.
Proof.
  intros E o f m m' HW [H1 [H2 H3]] HL.
  destruct o; cbn in HW; repeat (destruct HW as [<-|HW]; [cbn [jwm_field_eq did_field_eq] in H1, H2, H3; cbn [leaves jwm_field_eq did_field_eq] in *; try exact I; try congruence|]); try destruct HW.
  all: try (rewrite <- ?H1, <- ?H2, <- ?H3; exact HL).
Qed.
Lemma last_write : forall E before o after m m' f, run E m (before ++ o :: after) = Ok m' -> In f (writes o) ->
  (forall o', In o' after -> ~ In f (writes o')) -> leaves E o f m'.
Proof.
  intros E before o after m m' f H HW HN. apply run_app in H. destruct H as [m1 [_ H]]. cbn [run] in H.
  destruct (step E m1 o) as [m2|e|] eqn:ES; try discriminate. eapply leaves_field; [exact HW|eapply run_frame; eassumption|].
  eapply step_leaves; eassumption.
Qed.

(** ** Accumulating fields *)

Definition to_args (o : op) : list string := match o with OTo xs => xs | _ => [] end.
Definition is_to (o : op) : bool := match o with OTo _ => true | _ => false end.
Lemma to_history : forall E ops m m', run E m ops = Ok m' -> (forall o, In o ops -> In FTo (writes o) -> is_to o = true) ->
  dh_to (m_did m') = if existsb is_to ops then filter non_empty (dh_to (m_did m) ++ flat_map to_args ops) else dh_to (m_did m).
Proof.
  intros E. induction ops as [|o r IH]; intros m m' H HN; cbn [run] in H.
  - apply ok_inj in H. now subst.
  - destruct (step E m o) as [m2|e|] eqn:ES; try discriminate. rewrite (IH _ _ H) by (intros o' Ho; apply HN; now right). clear IH.
    destruct (is_to o) eqn:EO.
    + destruct o; try discriminate. cbn [step] in ES. apply ok_inj in ES. subst m2. rewrite set_to_filter.
      cbn [m_did with_did dh_to dh_with_to existsb is_to orb flat_map to_args].
      assert (HE : existsb is_to r = false -> flat_map to_args r = []).
      { clear. induction r as [|o r IH]; [reflexivity|]. cbn. destruct o; cbn; auto; discriminate. }
      destruct (existsb is_to r).
      * rewrite filter_app, filter_idem, <- filter_app. now rewrite app_assoc.
      * rewrite HE by reflexivity. now rewrite app_nil_r.
    + assert (HF : field_eq FTo m m2).
      { eapply step_frame; [exact ES|]. intros HI. specialize (HN o (or_introl eq_refl) HI). congruence. }
      destruct HF as [_ [HF _]]. cbn in HF. rewrite <- HF. cbn [existsb flat_map]. rewrite EO.
      assert (HA : to_args o = []) by (destruct o; cbn in *; congruence). now rewrite HA.
Qed.

Definition att_of (o : op) : list attachment :=
  match o with OAttach now b => [if ab_timed b then at_with_lastmod now (ab_inner b) else ab_inner b] | _ => [] end.
Lemma attach_history : forall E ops m m', run E m ops = Ok m' -> m_attachments m' = (m_attachments m ++ flat_map att_of ops)%list.
Proof.
  intros E. induction ops as [|o r IH]; intros m m' H; cbn [run] in H.
  - apply ok_inj in H. subst. now rewrite app_nil_r.
  - destruct (step E m o) as [m2|e|] eqn:ES; try discriminate. rewrite (IH _ _ H). cbn [flat_map]. rewrite app_assoc. f_equal.
    assert (HO : In FAttachments (writes o) \/ ~ In FAttachments (writes o)) by (destruct o; cbn; intuition discriminate).
    destruct HO as [HO|HO].
    + destruct o; cbn in HO; try (repeat (destruct HO as [HO|HO]; [discriminate|]); destruct HO; fail).
      cbn [step] in ES. apply ok_inj in ES. subst m2. reflexivity.
    + destruct (step_frame _ _ _ _ _ ES HO) as [_ [_ HF]]. cbn in HF. rewrite <- HF.
      assert (HA : att_of o = []) by (destruct o; try reflexivity; exfalso; apply HO; cbn; tauto). now rewrite HA, app_nil_r.
Qed.

Definition field_args (o : op) : list (string * string) := match o with OField k v => if String.eqb k "" then [] else [(k, v)] | _ => [] end.
Definition is_field (o : op) : bool := match o with OField _ _ => true | _ => false end.
Lemma add_field_get : forall m k v x, map_get x (dh_other (m_did (add_header_field m k v))) =
  if String.eqb k "" then map_get x (dh_other (m_did m)) else if String.eqb x k then Some v else map_get x (dh_other (m_did m)).
Proof.
  intros m k v x. unfold add_header_field. destruct (String.eqb_spec k "") as [->|N]; [reflexivity|]. cbn.
  destruct (String.eqb_spec x k) as [->|N2]; [apply map_get_insert_same|now apply map_get_insert_other].
Qed.
Lemma field_history : forall E ops m m' x, run E m ops = Ok m' -> (forall o, In o ops -> In FOther (writes o) -> is_field o = true) ->
  map_get x (dh_other (m_did m')) = match map_get x (rev (flat_map field_args ops)) with Some v => Some v | None => map_get x (dh_other (m_did m)) end.
Proof.
  intros E. induction ops as [|o r IH]; intros m m' x H HN; cbn [run] in H.
  - apply ok_inj in H. now subst.
  - destruct (step E m o) as [m2|e|] eqn:ES; try discriminate. rewrite (IH _ _ x H) by (intros o' Ho; apply HN; now right). clear IH.
    cbn [flat_map]. rewrite rev_app_distr.
    assert (HG : forall (a b : list (string * string)), map_get x (a ++ b)%list = match map_get x a with Some v => Some v | None => map_get x b end).
    { induction a as [|[k v] a IHa]; intros b; [reflexivity|]. cbn. destruct (String.eqb x k); [reflexivity|apply IHa]. }
    rewrite HG. destruct (map_get x (rev (flat_map field_args r))) as [w|]; [reflexivity|].
    destruct (is_field o) eqn:EO.
    + destruct o; try discriminate. cbn [step] in ES. apply ok_inj in ES. subst m2. rewrite add_field_get. cbn [field_args].
      destruct (String.eqb k ""); [reflexivity|]. cbn [rev app map_get]. now destruct (String.eqb x k).
    + assert (HF : field_eq FOther m m2).
      { eapply step_frame; [exact ES|]. intros HI. specialize (HN o (or_introl eq_refl) HI). congruence. }
      destruct HF as [_ [HF _]]. cbn in HF. rewrite <- HF. assert (HA : field_args o = []) by (destruct o; cbn in *; congruence). now rewrite HA.
Qed.
Lemma add_field_unique : forall m k v, unique_keys (dh_other (m_did m)) -> unique_keys (dh_other (m_did (add_header_field m k v))).
Proof.
  intros m k v H. unfold add_header_field. destruct (String.eqb k ""); [exact H|]. cbn. now apply map_insert_NoDup.
Qed.

(** ** Threads *)

Lemma is_implicit_iff : forall t id, is_implicit_reply t id = true <-> marks_reply t id.
Proof.
  intros t id. unfold is_implicit_reply, marks_reply. destruct (String.eqb_spec (th_thid t) id) as [->|N].
  - split; [discriminate|intros [H _]; now destruct H].
  - destruct (th_received_orders t) as [ro|].
    + rewrite forallb_forall. split.
      * intros H. split; [exact N|]. intros ro' E k n HI. injection E as <-. specialize (H (k, n) HI). now apply N.eqb_eq in H.
      * intros [_ H] [k n] HI. cbn. apply N.eqb_eq. eapply H; [reflexivity|exact HI].
    + split; [|reflexivity]. intros _. split; [exact N|]. intros ro' E. discriminate.
Qed.
Lemma reply_marked : forall m p t, dh_thread (m_did p) = Some t -> marks_reply t (dh_id (m_did p)) ->
  reply_to m p = with_did m (dh_with_to (dh_with_thid (dh_with_thread (m_did m) (Some
     {| th_thid := th_thid t; th_pthid := ""; th_sender_order := None; th_received_orders := None; th_goal_code := None |})) (Some (th_thid t)))
     (dh_to (m_did m) ++ [match dh_from (m_did p) with Some f => f | None => "" end])).
Proof.
  intros m p t HT HM. unfold reply_to, dh_reply_to. rewrite HT. apply is_implicit_iff in HM. rewrite HM. unfold or_empty.
  now destruct (dh_from (m_did p)).
Qed.
Lemma reply_plain : forall m p, (forall t, dh_thread (m_did p) = Some t -> ~ marks_reply t (dh_id (m_did p))) ->
  reply_to m p = with_did m (dh_with_to (dh_with_pthid (dh_with_thid (m_did m) (dh_thid (m_did p))) (dh_pthid (m_did p)))
     (dh_to (m_did m) ++ [match dh_from (m_did p) with Some f => f | None => "" end])).
Proof.
  intros m p HN. unfold reply_to, dh_reply_to, or_empty. destruct (dh_thread (m_did p)) as [t|] eqn:HT.
  - specialize (HN t eq_refl). rewrite <- is_implicit_iff in HN. destruct (is_implicit_reply t (dh_id (m_did p))); [now destruct HN|].
    now destruct (dh_from (m_did p)).
  - now destruct (dh_from (m_did p)).
Qed.
Lemma marks_dec : forall t id, marks_reply t id \/ ~ marks_reply t id.
Proof. intros t id. destruct (is_implicit_reply t id) eqn:E; [left; now apply is_implicit_iff|right]. intros H. apply is_implicit_iff in H. congruence. Qed.
Lemma in_thread_total : forall m, exists x, in_thread m x.
Proof.
  intros m. destruct (dh_thread (m_did m)) as [t|] eqn:HT.
  - destruct (marks_dec t (dh_id (m_did m))) as [H|H]; eexists; [eapply it_decorator; eauto|apply it_thid]. intros t' E. congruence.
  - eexists. apply it_thid. intros t E. congruence.
Qed.
Lemma in_thread_fun : forall m x y, in_thread m x -> in_thread m y -> x = y.
Proof.
  intros m x y H1 H2. destruct H1 as [t HT HM|HN], H2 as [t' HT' HM'|HN']; try reflexivity.
  - congruence.
  - exfalso. exact (HN' _ HT HM).
  - exfalso. exact (HN _ HT' HM').
Qed.
Lemma reply_thread : forall fresh p x, dh_thread (m_did fresh) = None -> in_thread p x ->
  dh_thid (m_did (reply_to fresh p)) = x /\ in_thread (reply_to fresh p) x.
Proof.
  intros fresh p x HF HI. destruct HI as [t HT HM|HN].
  - rewrite (reply_marked fresh p t HT HM). split; [reflexivity|].
    match goal with |- in_thread ?m _ => destruct (marks_dec {| th_thid := th_thid t; th_pthid := ""; th_sender_order := None;
      th_received_orders := None; th_goal_code := None |} (dh_id (m_did m))) as [HK|HK]; [exact (it_decorator m _ eq_refl HK)|] end.
    match goal with |- in_thread ?m _ => apply (it_thid m) end. intros t' E. cbn in E. injection E as <-. exact HK.
  - rewrite (reply_plain fresh p HN). split; [reflexivity|]. match goal with |- in_thread ?m _ => apply (it_thid m) end.
    intros t E. cbn in E. congruence.
Qed.
Lemma chain_thread : forall m0 m x, in_thread m0 x -> reply_chain m0 m -> dh_thid (m_did m) = x /\ in_thread m x.
Proof.
  intros m0 m x HI HC. induction HC as [fresh HF|fresh m HC IH HF]; apply reply_thread; auto. apply IH.
Qed.

(** ** Attachments *)

Lemma collect_ok : forall A (l : list (res A)) ts, collect l = Ok ts <-> Forall2 (fun x t => x = Ok t) l ts.
Proof.
  induction l as [|x l IH]; intros ts; cbn [collect].
  - split; [intros H; apply ok_inj in H; subst; constructor | intros H; inversion H; reflexivity].
  - destruct x as [a|e|]; cbn [rbind].
    + destruct (collect l) as [b|e|] eqn:EC; cbn [rbind].
      * split.
        -- intros H. apply ok_inj in H. subst. constructor; [reflexivity|]. now apply IH.
        -- intros H. inversion H as [|? t ? ts' H1 H2]; subst. apply ok_inj in H1. subst t. apply IH in H2. congruence.
      * split; [discriminate|]. intros H. inversion H as [|? t ? ts' H1 H2]; subst. apply IH in H2. congruence.
      * split; [discriminate|]. intros H. inversion H as [|? t ? ts' H1 H2]; subst. apply IH in H2. congruence.
    + split; [discriminate|]. intros H. inversion H; discriminate.
    + split; [discriminate|]. intros H. inversion H; discriminate.
Qed.
Lemma collect_np : forall A (l : list (res A)), (forall x, In x l -> x <> Panic) -> collect l <> Panic.
Proof.
  induction l as [|x l IH]; intros H; cbn [collect]; [discriminate|]. destruct x as [a|e|]; cbn [rbind]; [|discriminate|].
  - destruct (collect l) as [b|e|] eqn:EC; cbn [rbind]; try discriminate. apply IH. intros y Hy. apply H. now right.
  - exfalso. apply (H Panic); [now left|reflexivity].
Qed.
Lemma deserialize_one : forall T (de : string -> option T) a t, deserialize_attachment de a = Ok t <->
  at_media_type a = Some "application/json" /\ exists j, ad_json (at_data a) = Some j /\ de j = Some t.
Proof.
  intros T de a t. unfold deserialize_attachment. destruct (at_media_type a) as [mt|].
  2:{ split; [discriminate|intros [H _]; discriminate]. }
  destruct (String.eqb_spec mt "application/json") as [->|N].
  2:{ split; [discriminate|intros [H _]; congruence]. }
  destruct (ad_json (at_data a)) as [j|].
  - destruct (de j) as [x|] eqn:ED; cbn [oerr].
    + split; [intros H; apply ok_inj in H; subst; split; [reflexivity|now exists j]|]. intros [_ [j' [H1 H2]]]. congruence.
    + split; [discriminate|]. intros [_ [j' [H1 H2]]]. congruence.
  - split; [destruct (at_id a); discriminate|]. intros [_ [j' [H1 _]]]. discriminate.
Qed.
Lemma deserialize_one_np : forall T (de : string -> option T) a, deserialize_attachment de a <> Panic.
Proof.
  intros T de a. unfold deserialize_attachment. destruct (at_media_type a) as [mt|]; [|discriminate].
  destruct (String.eqb mt "application/json"); [|discriminate]. destruct (ad_json (at_data a)) as [j|]; [destruct (de j); discriminate|].
  destruct (at_id a); discriminate.
Qed.
Lemma Forall2_map_l : forall A B C (f : A -> B) (P : B -> C -> Prop) l l', Forall2 P (map f l) l' <-> Forall2 (fun a c => P (f a) c) l l'.
Proof.
  induction l as [|a l IH]; intros l'; cbn; split; intros H; inversion H; subst; constructor; auto; now apply IH.
Qed.
Lemma Forall2_iff : forall A B (P Q : A -> B -> Prop) l l', (forall a b, P a b <-> Q a b) -> (Forall2 P l l' <-> Forall2 Q l l').
Proof. intros A B P Q l l' H. split; intros F; induction F; constructor; auto; now apply H. Qed.
Lemma deserialize_all : forall T (de : string -> option T) m ts, deserialize_attachments de m "application/json" = Ok ts <->
  Forall2 (fun a t => at_media_type a = Some "application/json" /\ exists j, ad_json (at_data a) = Some j /\ de j = Some t)
    (filter (has_format "application/json") (m_attachments m)) ts.
Proof.
  intros T de m ts. unfold deserialize_attachments. rewrite String.eqb_refl, collect_ok, Forall2_map_l.
  apply Forall2_iff. intros a t. apply deserialize_one.
Qed.
Lemma deserialize_np : forall T (de : string -> option T) m fmt, deserialize_attachments de m fmt <> Panic.
Proof.
  intros T de m fmt. unfold deserialize_attachments. destruct (String.eqb fmt "application/json"); [|discriminate].
  apply collect_np. intros x Hx. apply in_map_iff in Hx. destruct Hx as [a [<- _]]. apply deserialize_one_np.
Qed.

(** ** Invitations *)

Lemma fold_append : forall l m, fold_left (fun m tb => append_attachment (fst tb) m (snd tb)) l m =
  with_attachments m (m_attachments m ++ map (fun tb => if ab_timed (snd tb) then at_with_lastmod (fst tb) (ab_inner (snd tb)) else ab_inner (snd tb)) l).
Proof.
  induction l as [|[now b] l IH]; intros m; cbn [fold_left map fst snd].
  - rewrite app_nil_r. now destruct m.
  - rewrite IH. unfold append_attachment, with_attachments, finalize. cbn. now rewrite <- app_assoc.
Qed.
