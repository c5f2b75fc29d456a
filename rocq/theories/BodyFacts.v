(** Bodies: number tokens, nesting, and the relation between a document and the value it is read as. *)

From Coq Require Import Ascii String Arith NArith List Bool Permutation Sorted Lia.
From Verif Require Import Bytes BytesFacts Json JsonFacts Value ValueFacts Types Message Envelope Spec SpecFacts SpecJson GrammarFacts.
Import ListNotations.
Local Open Scope string_scope.

(** ** Decimal numerals are unique *)

Lemma digit_val : forall c, is_digit c = true -> (48 <= code c <= 57)%N.
Proof. intros c H. unfold is_digit in H. apply andb_true_iff in H. destruct H as [H1 H2]. apply N.leb_le in H1, H2. lia. Qed.
Lemma dec_val_cons : forall c r n, dec_val n (String c r) = dec_val (n * 10 + (code c - 48)) r.
Proof. reflexivity. Qed.
Lemma dec_val_bound : forall d, sall is_digit d = true -> (dec_val 0 d < 10 ^ N.of_nat (String.length d))%N.
Proof.
  induction d as [|c d IH]; intros H; [cbn; lia|]. cbn [sall] in H. apply andb_true_iff in H. destruct H as [Hc Hd].
  rewrite dec_val_cons, dec_val_shift. specialize (IH Hd). apply digit_val in Hc. cbn [String.length].
  rewrite Nat2N.inj_succ, N.pow_succ_r'. nia.
Qed.
Lemma dec_val_inj_len : forall a b, sall is_digit a = true -> sall is_digit b = true -> String.length a = String.length b ->
  dec_val 0 a = dec_val 0 b -> a = b.
Proof.
  induction a as [|c a IH]; intros [|c' b] Ha Hb HL HV; try discriminate; [reflexivity|].
  cbn [sall] in Ha, Hb. apply andb_true_iff in Ha, Hb. destruct Ha as [Hc Ha], Hb as [Hc' Hb]. injection HL as HL.
  rewrite !dec_val_cons in HV. rewrite (dec_val_shift a), (dec_val_shift b) in HV.
  pose proof (dec_val_bound a Ha) as BA. pose proof (dec_val_bound b Hb) as BB. rewrite HL in BA, HV.
  apply digit_val in Hc, Hc'. set (P := (10 ^ N.of_nat (String.length b))%N) in *.
  assert (HE : (code c - 48 = code c' - 48)%N) by nia.
  assert (HC : c = c') by (apply code_inj; lia). subst c'. f_equal. apply IH; try assumption. lia.
Qed.
Lemma no_lead_digits : forall d, no_leading_zero d = true -> sall is_digit d = true.
Proof.
  intros [|c [|c2 d]] H; try discriminate; cbn in *; [now rewrite H|].
  apply andb_true_iff in H. destruct H as [H1 H2]. apply andb_true_iff in H1. destruct H1 as [H1 _]. now rewrite H1.
Qed.
Lemma no_lead_low : forall d, no_leading_zero d = true -> 2 <= String.length d -> (10 ^ N.of_nat (String.length d - 1) <= dec_val 0 d)%N.
Proof.
  intros [|c [|c2 d]] H HL; cbn in HL; try lia. cbn [no_leading_zero] in H. apply andb_true_iff in H. destruct H as [H1 H2].
  apply andb_true_iff in H1. destruct H1 as [H1 H3]. apply digit_val in H1. apply negb_true_iff, N.eqb_neq in H3.
  rewrite dec_val_cons, dec_val_shift. replace (String.length (String c (String c2 d)) - 1) with (String.length (String c2 d)) by (cbn; lia).
  nia.
Qed.
Lemma no_lead_nonempty : forall d, no_leading_zero d = true -> 1 <= String.length d.
Proof. intros [|c d] H; [discriminate|]. cbn. lia. Qed.
Lemma no_lead_inj : forall a b, no_leading_zero a = true -> no_leading_zero b = true -> dec_val 0 a = dec_val 0 b -> a = b.
Proof.
  intros a b Ha Hb HV. pose proof (no_lead_digits a Ha) as Da. pose proof (no_lead_digits b Hb) as Db.
  pose proof (dec_val_bound a Da) as Ba. pose proof (dec_val_bound b Db) as Bb.
  apply dec_val_inj_len; try assumption.
  pose proof (no_lead_nonempty a Ha). pose proof (no_lead_nonempty b Hb).
  destruct (Nat.lt_trichotomy (String.length a) (String.length b)) as [L|[L|L]]; [|exact L|]; exfalso.
  - assert (G : 2 <= String.length b) by lia. pose proof (no_lead_low b Hb G) as Lb.
    assert (10 ^ N.of_nat (String.length a) <= 10 ^ N.of_nat (String.length b - 1))%N by (apply N.pow_le_mono_r; lia). lia.
  - assert (G : 2 <= String.length a) by lia. pose proof (no_lead_low a Ha G) as La.
    assert (10 ^ N.of_nat (String.length b) <= 10 ^ N.of_nat (String.length a - 1))%N by (apply N.pow_le_mono_r; lia). lia.
Qed.
Lemma dec_canon : forall d, no_leading_zero d = true -> dec_of_N (dec_val 0 d) = d.
Proof. intros d H. apply no_lead_inj; [apply dec_of_N_form|exact H|]. apply dec_of_N_val. Qed.

(** ** Number tokens *)

Lemma lex_int_no_lead : forall s, lex_int s = Some (s, "") -> no_leading_zero s = true.
Proof.
  intros [|c r] H; [discriminate|]. unfold lex_int in H. destruct (code c =? 48)%N eqn:E0.
  - injection H as H1 H2. subst r. cbn. unfold is_digit. apply N.eqb_eq in E0. now rewrite E0.
  - destruct (is_digit c) eqn:Ed; [|discriminate]. apply some_inj in H.
    assert (G : sall is_digit (String c r) = true).
    { pose proof (span_digits_digits (String c r)) as G. rewrite H in G. exact G. }
    cbn [sall] in G. apply andb_true_iff in G. destruct G as [_ G]. cbn [no_leading_zero]. destruct r; [exact Ed|].
    now rewrite Ed, E0, G.
Qed.
Lemma span_digits_all : forall d, sall is_digit d = true -> span_digits d = (d, "").
Proof. intros d H. rewrite <- (sapp_nil_r d) at 1. apply span_digits_exact; [exact H|reflexivity]. Qed.
Lemma lex_frac_digits : forall i x, lex_frac "" = Some (i, x) -> i = "" /\ x = "".
Proof. intros i x H. cbn in H. now injection H as <- <-. Qed.

(** An all-digit token is a numeral without leading zero. *)
Lemma numtok_pos : forall t, numtok t -> sall is_digit t = true -> no_leading_zero t = true.
Proof.
  intros [|c r] H HD; [discriminate|]. unfold numtok, lex_num in H. cbn [sall] in HD. apply andb_true_iff in HD. destruct HD as [Hc Hr].
  assert (Em : (code c =? 45)%N = false). { apply N.eqb_neq. apply digit_val in Hc. lia. }
  rewrite Em in H. unfold lex_int in H. destruct (code c =? 48)%N eqn:E0.
  - destruct r as [|c2 r]; [cbn; exact Hc|]. exfalso. cbn [lex_frac] in H. cbn [sall] in Hr. apply andb_true_iff in Hr. destruct Hr as [H2 Hr].
    assert (E2 : (code c2 =? 46)%N = false). { apply N.eqb_neq. apply digit_val in H2. lia. }
    rewrite E2 in H. cbn [lex_exp] in H.
    assert (E3 : ((code c2 =? 101) || (code c2 =? 69))%N = false). { apply orb_false_iff. split; apply N.eqb_neq; apply digit_val in H2; lia. }
    rewrite E3 in H. discriminate.
  - rewrite Hc in H. destruct r as [|c2 r]; [exact Hc|]. cbn [no_leading_zero]. now rewrite Hc, E0, Hr.
Qed.
Lemma numtok_neg : forall r, numtok (String "-" r) -> sall is_digit r = true -> no_leading_zero r = true.
Proof.
  intros r H HD. apply numtok_pos; [|exact HD]. unfold numtok, lex_num in *. change ((code "-" =? 45)%N) with true in H. cbn iota in H.
  destruct r as [|c r]; [discriminate|]. cbn [sall] in HD. apply andb_true_iff in HD. destruct HD as [Hc Hr].
  assert (Em : (code c =? 45)%N = false). { apply N.eqb_neq. apply digit_val in Hc. lia. }
  rewrite Em. destruct (lex_int (String c r)) as [[i s2]|]; [|discriminate]. destruct (lex_frac s2) as [[f s3]|]; [|discriminate].
  destruct (lex_exp s3) as [[e s4]|]; [|discriminate]. injection H as H1 H2. cbn. now rewrite H1, H2.
Qed.

Lemma neg_char : forall c, (code c =? 45)%N = true -> c = "-"%char.
Proof. intros c H. apply N.eqb_eq in H. apply code_inj. exact H. Qed.
Lemma vnum_int : forall R t, numtok t -> int64_token t -> vnum R t = Some t.
Proof.
  intros R t Ht [[n [Hn ->]]|[n [Hn ->]]].
  - apply vnum_dec. exact Hn.
  - unfold vnum. cbn [append tok_int]. change ((code "-" =? 45)%N) with true. cbn iota.
    rewrite dec_of_N_digits, dec_of_N_val. destruct (N.eqb_spec n 0); [lia|]. destruct (N.leb_spec n i64_min_abs); [reflexivity|].
    unfold i64_min_abs in *. lia.
Qed.
Lemma vnum_float : forall R t, numtok t -> ~ int64_token t -> vnum R t = fnorm R t.
Proof.
  intros R t Ht Hi. unfold vnum. destruct t as [|c r]; [discriminate|]. cbn [tok_int].
  destruct (code c =? 45)%N eqn:Em.
  - apply neg_char in Em. subst c. destruct (sall is_digit r) eqn:ED; [|reflexivity].
    destruct (N.eqb_spec (dec_val 0 r) 0); [reflexivity|].
    destruct (N.leb_spec (dec_val 0 r) i64_min_abs); [|reflexivity]. exfalso. apply Hi. right. exists (dec_val 0 r).
    split; [unfold i64_min_abs in *; lia|]. rewrite dec_canon; [reflexivity|]. apply numtok_neg; assumption.
  - destruct (sall is_digit (String c r)) eqn:ED; [|reflexivity].
    destruct (N.leb_spec (dec_val 0 (String c r)) u64_max); [|reflexivity]. exfalso. apply Hi. left. exists (dec_val 0 (String c r)).
    split; [exact H|]. symmetry. apply dec_canon. apply numtok_pos; assumption.
Qed.
Lemma int64_dec : forall t, numtok t -> int64_token t \/ ~ int64_token t.
Proof.
  intros t Ht. set (R0 := {| fnorm := fun _ => None; hord := fun V l => l |}).
  destruct (vnum R0 t) as [t'|] eqn:EV.
  - left. unfold vnum in EV. destruct t as [|c r]; [discriminate|]. cbn [tok_int] in EV.
    destruct (code c =? 45)%N eqn:Em.
    + apply neg_char in Em. subst c. destruct (sall is_digit r) eqn:ED; [|discriminate].
      destruct (N.eqb_spec (dec_val 0 r) 0); [discriminate|].
      destruct (N.leb_spec (dec_val 0 r) i64_min_abs); [|discriminate]. right. exists (dec_val 0 r).
      split; [unfold i64_min_abs in *; lia|]. rewrite dec_canon; [reflexivity|]. apply numtok_neg; assumption.
    + destruct (sall is_digit (String c r)) eqn:ED; [|discriminate].
      destruct (N.leb_spec (dec_val 0 (String c r)) u64_max); [|discriminate]. left. exists (dec_val 0 (String c r)).
      split; [exact H|]. symmetry. apply dec_canon. apply numtok_pos; assumption.
  - right. intros Hi. rewrite vnum_int in EV by assumption. discriminate.
Qed.
Lemma vnum_reads : forall R t t', numtok t -> (vnum R t = Some t' <-> num_reads R t t').
Proof.
  intros R t t' Ht. split; intros H.
  - destruct (int64_dec t Ht) as [Hi|Hi].
    + rewrite vnum_int in H by assumption. apply some_inj in H. subst t'. now constructor.
    + rewrite vnum_float in H by assumption. now constructor.
  - destruct H as [Hi|t' Hi H]; [now apply vnum_int|]. now rewrite vnum_float.
Qed.

(** ** Nesting *)

Lemma nested_depth : forall j n, nested n j <-> depth j <= n.
Proof.
  apply (json_rect2 (fun j => forall n, nested n j <-> depth j <= n)); try (intros; split; [cbn; lia|constructor]).
  - intros l IH n. split.
    + intros H. inversion H as [| | | |n' l' HI|]; subst. apply depth_arr_le. rewrite Forall_forall in *. intros x Hx. apply (IH x Hx). auto.
    + intros H. destruct n as [|n]; [cbn in H; lia|]. apply depth_arr_le in H. constructor. rewrite Forall_forall in *. intros x Hx. apply (IH x Hx). auto.
  - intros l IH n. split.
    + intros H. inversion H as [| | | | |n' l' HI]; subst. apply depth_obj_le. rewrite Forall_forall in *. intros x Hx. apply (IH x Hx). auto.
    + intros H. destruct n as [|n]; [cbn in H; lia|]. apply depth_obj_le in H. constructor. rewrite Forall_forall in *. intros x Hx. apply (IH x Hx). auto.
Qed.

(** ** Reading *)

Lemma last_get_binding : forall V (es : list (string * V)) k v, last_get k es = Some v <-> last_binding es k v.
Proof.
  intros V es k v. unfold last_get, last_binding. split.
  - revert v. induction es as [|[k' v'] es IH] using rev_ind; intros v H; [discriminate|].
    rewrite rev_app_distr in H. cbn [rev app map_get] in H. destruct (String.eqb_spec k k') as [->|N].
    + apply some_inj in H. subst v'. exists es, []. split; [reflexivity|]. intros [].
    + apply IH in H. destruct H as [b [a [-> HN]]]. exists b, (a ++ [(k', v')])%list. split; [now rewrite <- app_assoc|].
      rewrite map_app, in_app_iff. cbn. intros [G|[G|[]]]; [auto|congruence].
  - intros [b [a [-> HN]]]. rewrite rev_app_distr. cbn [rev]. rewrite <- app_assoc. cbn [app].
    assert (G : forall l, ~ In k (map fst l) -> forall r, map_get k (l ++ r)%list = map_get (V := V) k r).
    { induction l as [|[k2 v2] l IH]; intros HL r; [reflexivity|]. cbn [app map_get]. cbn in HL.
      destruct (String.eqb_spec k k2) as [->|_]; [tauto|]. apply IH. tauto. }
    rewrite G; [cbn; now rewrite String.eqb_refl|]. rewrite map_rev. now rewrite <- in_rev.
Qed.

Lemma Forall2_In_r : forall A B (P : A -> B -> Prop) l r y, Forall2 P l r -> In y r -> exists x, In x l /\ P x y.
Proof. intros A B P l r y H. induction H; intros HI; [destruct HI|]. destruct HI as [<-|HI]; [eexists; split; [now left|eassumption]|]. destruct (IHForall2 HI) as [z [Hz1 Hz2]]. exists z. split; [now right|exact Hz2]. Qed.
Lemma Forall2_In_l : forall A B (P : A -> B -> Prop) l r x, Forall2 P l r -> In x l -> exists y, In y r /\ P x y.
Proof. intros A B P l r y H. induction H; intros HI; [destruct HI|]. destruct HI as [<-|HI]; [eexists; split; [now left|eassumption]|]. destruct (IHForall2 HI) as [z [Hz1 Hz2]]. exists z. split; [now right|exact Hz2]. Qed.

Lemma last_binding_map : forall (P : json -> json -> Prop) es r k v,
  Forall2 (fun a b => fst b = fst a /\ P (snd a) (snd b)) es r -> last_binding r k v -> exists j, last_binding es k j /\ P j v.
Proof.
  intros P es r k v H [b [a [-> HN]]]. apply Forall2_app_inv_r in H. destruct H as [eb [e2 [H1 [H2 ->]]]].
  inversion H2 as [|[k' j] y ea y2 [HK HP] HA]; subst. cbn in HK, HP. subst k'. exists j. split; [|exact HP].
  exists eb, ea. split; [reflexivity|]. intros G. apply HN. clear -HA G. induction HA as [|x y l l' [HK _] HA IH]; [exact G|].
  cbn in *. destruct G as [G|G]; [left; congruence|right; auto].
Qed.

Lemma vof_reads : forall R j v, num_wf j -> vof R j = Some v -> reads R j v.
Proof.
  intros R. apply (json_raw_ind (fun j => forall v, num_wf j -> vof R j = Some v -> reads R j v)).
  - intros v _ H. injection H as <-. constructor.
  - intros b v _ H. injection H as <-. constructor.
  - intros t v Hw H. rewrite vof_num in H. destruct (vnum R t) as [t'|] eqn:EV; [|discriminate]. injection H as <-. constructor. apply vnum_reads; assumption.
  - intros e s v _ H. rewrite vof_str in H. injection H as <-. constructor.
  - intros l IH v Hw H. apply num_wf_arr in Hw. rewrite vof_arr in H. destruct (all_some _) as [r|] eqn:EA; [|discriminate]. injection H as <-.
    constructor. apply all_some_Forall2 in EA. clear -IH Hw EA. induction EA as [|x y l r HE EA IHA]; [constructor|].
    inversion IH; subst. inversion Hw; subst. constructor; auto.
  - intros l IH IR v Hw H. destruct (raw_member l) as [[s|]|] eqn:EM.
    { apply (vof_raw _ _ _ _ EM) in H. destruct H as [j [HP [HD H]]]. pose proof (raw_member_some _ _ EM) as [e ->]. apply (rd_raw R e s j).
      - now apply document_iff.
      - now apply nested_depth.
      - apply (IR s j eq_refl HP); [eapply parse_num_wf; eassumption|exact H]. }
    { rewrite vof_obj, EM in H. discriminate. }
    apply num_wf_obj in Hw. rewrite vof_obj, EM in H. destruct (all_some _) as [r|] eqn:EA; [|discriminate]. apply some_inj in H. subst v.
    apply all_some_Forall2 in EA.
    assert (EB : Forall2 (fun a b => fst b = fst a /\ reads R (snd a) (snd b)) l r).
    { clear -IH Hw EA. induction EA as [|x y l r HE EA IHA]; [constructor|]. inversion IH; subst. inversion Hw; subst.
      apply okv_some in HE. destruct HE as [HE1 HE2]. constructor; auto. }
    constructor.
    + now apply plain_start_iff.
    + apply bt_of_entries_sorted.
    + intros k v Hkv. eapply last_binding_map; [exact EB|]. apply last_get_binding. rewrite <- bt_of_entries_get.
      apply In_map_get; [|exact Hkv]. apply sorted_NoDup. apply bt_of_entries_sorted.
    + intros k Hk. apply in_map_iff in Hk. destruct Hk as [x [<- Hx]]. destruct (Forall2_In_l _ _ _ _ _ _ EB Hx) as [y [Hy [HK _]]].
      destruct (map_get (fst x) (bt_of_entries r)) as [w|] eqn:EG.
      * apply map_get_In in EG. apply in_map_iff. now exists (fst x, w).
      * rewrite bt_of_entries_get in EG. unfold last_get in EG. apply map_get_None in EG. exfalso. apply EG.
        unfold keys. rewrite map_rev. rewrite <- in_rev. apply in_map_iff. exists y. now split.
    + intros x Hx. destruct (Forall2_In_l _ _ _ _ _ _ EB Hx) as [y [Hy [_ HP]]]. now exists (snd y).
Qed.

Lemma last_binding_fun : forall V (es : list (string * V)) k a b, last_binding es k a -> last_binding es k b -> a = b.
Proof. intros V es k a b Ha Hb. apply last_get_binding in Ha, Hb. congruence. Qed.
Lemma last_binding_In : forall V (es : list (string * V)) k a, last_binding es k a -> In (k, a) es.
Proof. intros V es k a [b [c [-> _]]]. apply in_or_app. right. now left. Qed.

Lemma str_sorted_ext : forall V (a b : list (string * V)), StronglySorted str_lt (map fst a) -> StronglySorted str_lt (map fst b) ->
  (forall x, In x a <-> In x b) -> a = b.
Proof.
  intros V. induction a as [|[k v] a IH]; intros b Sa Sb HI.
  - destruct b as [|x b]; [reflexivity|]. exfalso. apply (HI x). now left.
  - destruct b as [|[k' v'] b]; [exfalso; apply (HI (k, v)); now left|].
    cbn in Sa, Sb. inversion Sa as [|? ? Sa' Fa]; subst. inversion Sb as [|? ? Sb' Fb]; subst. rewrite Forall_forall in Fa, Fb.
    assert (HH : (k, v) = (k', v')).
    { destruct (proj1 (HI (k, v)) (or_introl eq_refl)) as [G|G]; [now symmetry|].
      destruct (proj2 (HI (k', v')) (or_introl eq_refl)) as [G'|G']; [exact G'|]. exfalso.
      assert (L1 : str_lt k' k) by (apply Fb; apply in_map_iff; now exists (k, v)).
      assert (L2 : str_lt k k') by (apply Fa; apply in_map_iff; now exists (k', v')).
      apply (slt_irrefl k). eapply slt_trans; eassumption. }
    injection HH as <- <-. f_equal. apply IH; try assumption. intros x. split; intros Hx.
    + destruct (proj1 (HI x) (or_intror Hx)) as [<-|G]; [|exact G]. exfalso. apply (slt_irrefl k). apply Fa. apply in_map_iff. now exists (k, v).
    + destruct (proj2 (HI x) (or_intror Hx)) as [<-|G]; [|exact G]. exfalso. apply (slt_irrefl k). apply Fb. apply in_map_iff. now exists (k, v).
Qed.

Lemma num_reads_fun : forall R t a b, num_reads R t a -> num_reads R t b -> a = b.
Proof. intros R t a b [Ha|a' Ha HA] [Hb|b' Hb HB]; try tauto; congruence. Qed.
Lemma reads_fun : forall R j v w, reads R j v -> reads R j w -> v = w.
Proof.
  intros R. apply (json_raw_ind (fun j => forall v w, reads R j v -> reads R j w -> v = w)).
  - intros v w H1 H2. inversion H1; inversion H2. reflexivity.
  - intros b v w H1 H2. inversion H1; inversion H2. reflexivity.
  - intros t v w H1 H2. inversion H1; inversion H2; subst. f_equal. eapply num_reads_fun; eassumption.
  - intros e s v w H1 H2. inversion H1; inversion H2. reflexivity.
  - intros l IH v w H1 H2. inversion H1 as [| | | |? l1 F1| |]; subst. inversion H2 as [| | | |? l2 F2| |]; subst. f_equal.
    clear H1 H2. revert l2 F2. induction F1 as [|x y l l1 HP F1 IHF]; intros l2 F2; inversion F2 as [|? y2 ? l2' HP2 F2']; subst; [reflexivity|].
    inversion IH as [|? ? IHx IHl]; subst. f_equal; [now apply IHx|]. now apply IHF.
  - intros l IH IR v w H1 H2. inversion H1 as [| | | | |? e1 P1 S1 B1 C1 D1|e1 s1 j1 ? E1 N1 R1]; subst; inversion H2 as [| | | | |? e2 P2 S2 B2 C2 D2|e2 s2 j2 ? E2 N2 R2]; subst.
    2: { exfalso. exact (P1 _ _ _ eq_refl eq_refl). }
    2: { exfalso. exact (P2 _ _ _ eq_refl eq_refl). }
    2: { apply document_iff in E1, E2. assert (j1 = j2) by congruence. subst j2. now apply (IR s1 j1 eq_refl E1). }
    f_equal.
    rewrite Forall_forall in IH.
    assert (G : forall ea eb, (forall k v, In (k, v) ea -> exists j, last_binding l k j /\ reads R j v) ->
                 (forall k v, In (k, v) eb -> exists j, last_binding l k j /\ reads R j v) ->
                 (forall k, In k (map fst l) -> In k (map fst eb)) -> forall x, In x ea -> In x eb).
    { intros ea eb Ba Bb Cb [k x] Hx. destruct (Ba _ _ Hx) as [j [Hj Hr]].
      pose proof (last_binding_In _ _ _ _ Hj) as Hi. assert (Hk : In k (map fst eb)). { apply Cb. apply in_map_iff. now exists (k, j). }
      apply in_map_iff in Hk. destruct Hk as [[k' y] [Ek Hy]]. cbn in Ek. subst k'. destruct (Bb _ _ Hy) as [j' [Hj' Hr']].
      rewrite (last_binding_fun _ _ _ _ _ Hj Hj') in *. assert (x = y); [|now subst]. eapply (IH (k, j')); [|exact Hr|exact Hr'].
      apply last_binding_In in Hj'. exact Hj'. }
    apply str_sorted_ext; try assumption. intros x. split; [apply (G e1 e2)|apply (G e2 e1)]; assumption.
Qed.
Lemma all_some_intro : forall A B (f : A -> option B) l, (forall x, In x l -> exists y, f x = Some y) -> exists r, all_some (map f l) = Some r.
Proof.
  intros A B f l H. induction l as [|x l IH]; [now exists []|]. destruct (H x (or_introl eq_refl)) as [y Hy].
  destruct IH as [r Hr]; [intros z Hz; apply H; now right|]. exists (y :: r). cbn. now rewrite Hy, Hr.
Qed.
Lemma reads_total : forall R j, num_wf j -> (exists v, reads R j v) -> exists v, vof R j = Some v.
Proof.
  intros R. apply (json_raw_ind (fun j => num_wf j -> (exists v, reads R j v) -> exists v, vof R j = Some v)); try (intros; eexists; reflexivity).
  - intros t Hw [v H]. inversion H as [| |? t' HN| | | |]; subst. apply vnum_reads in HN; [|exact Hw]. exists (JNum t'). now rewrite vof_num, HN.
  - intros e s _ _. eexists. apply vof_str.
  - intros l IH Hw [v H]. inversion H as [| | | |? l1 F1| |]; subst. apply num_wf_arr in Hw. rewrite Forall_forall in IH, Hw.
    destruct (all_some_intro _ _ (vof R) l) as [r Hr]; [|exists (JArr r); now rewrite vof_arr, Hr].
    intros x Hx. apply IH; auto. destruct (Forall2_In_l _ _ _ _ _ _ F1 Hx) as [y [_ Hy]]. now exists y.
  - intros l IH IR Hw [v H]. inversion H as [| | | | |? e1 P1 S1 B1 C1 D1|e1 s1 j1 ? E1 N1 R1]; subst.
    2: { apply document_iff in E1. destruct (IR s1 j1 eq_refl E1) as [w Hv]; [eapply parse_num_wf; eassumption|now exists v|]. exists w. rewrite vof_obj.
         change (raw_member [(reserved_name, JStr e1 s1)]) with (Some (Some s1)). cbn iota. rewrite E1. unfold value_of. apply nested_depth in N1.
         apply Nat.leb_le in N1. unfold max_depth. now rewrite N1. }
    apply plain_start_iff in P1. apply num_wf_obj in Hw. rewrite Forall_forall in IH, Hw.
    destruct (all_some_intro _ _ (fun kv => okv (fst kv) (vof R (snd kv))) l) as [r Hr]; [|eexists; rewrite vof_obj, P1, Hr; reflexivity].
    intros x Hx. destruct (IH x Hx (Hw x Hx) (D1 x Hx)) as [y Hy]. exists (fst x, y). now rewrite Hy.
Qed.
Lemma vof_iff : forall R j v, num_wf j -> (vof R j = Some v <-> reads R j v).
Proof.
  intros R j v Hw. split; [now apply vof_reads|]. intros H. destruct (reads_total R j Hw (ex_intro _ v H)) as [w Hw'].
  rewrite Hw'. f_equal. eapply reads_fun; [|exact H]. now apply vof_reads.
Qed.

(** ** [set_body] *)

Lemma set_body_iff : forall R m t m', set_body R m t = Ok m' <->
  exists j v, parse t = Some j /\ nested 127 j /\ reads R j v /\ m' = with_body m v.
Proof.
  intros R m t m'. unfold set_body. split.
  - intros H. destruct (parse t) as [j|] eqn:EP; [|discriminate]. cbn [oerr rbind] in H.
    destruct (value_of R max_depth j) as [v|] eqn:EV; [|discriminate]. cbn [oerr rbind] in H. injection H as <-.
    apply value_of_some in EV. destruct EV as [E1 E2]. exists j, v. repeat split.
    + now apply nested_depth.
    + apply vof_reads; [|exact E2]. eapply parse_num_wf; eauto.
  - intros [j [v [EP [HN [HR ->]]]]]. rewrite EP. cbn [oerr rbind]. unfold value_of. apply nested_depth in HN.
    apply Nat.leb_le in HN. unfold max_depth. rewrite HN. apply vof_iff in HR; [|eapply parse_num_wf; eauto]. rewrite HR. reflexivity.
Qed.
Lemma set_body_err : forall R m t, (forall m', set_body R m t <> Ok m') -> set_body R m t = Err ESerde.
Proof.
  intros R m t H. unfold set_body in *. destruct (parse t) as [j|]; [|reflexivity]. cbn [oerr rbind] in *.
  destruct (value_of _ _ _); [|reflexivity]. exfalso. eapply H. reflexivity.
Qed.

Lemma reads_rust : forall R j v, drt_ok R -> num_wf j -> reads R j v -> rust_value v.
Proof.
  intros R j v HR Hw H. apply vof_iff in H; [|exact Hw]. apply rust_value_intro; [eapply vof_wf; eauto|eapply vof_sorted; eauto].
Qed.
(** Without the reserved name a value is not nested deeper than its document. *)
Lemma reads_ordinary : forall R j v, num_wf j -> ordinary j -> reads R j v -> ordinary v /\ (forall n, nested n j -> nested n v).
Proof.
  intros R j v Hw HO H. apply vof_iff in H; [|exact Hw]. apply ordinary_iff in HO. split.
  - apply ordinary_iff. eapply vof_tok_free; eauto.
  - intros n Hn. apply nested_depth in Hn. apply nested_depth. apply vof_depth in H; [lia|exact HO].
Qed.
Lemma set_body_again : forall R m t m', drt_ok R -> set_body R m t = Ok m' -> stable R (m_body m') -> nested 127 (m_body m') ->
  forall m2, set_body R m2 (get_body m') = Ok (with_body m2 (m_body m')).
Proof.
  intros R m t m' HR H HS HN m2. apply set_body_iff in H. destruct H as [j [v [EP [_ [HD ->]]]]]. cbn [m_body with_body] in *.
  pose proof (parse_num_wf _ _ EP) as HW. pose proof (reads_rust R j v HR HW HD) as HV.
  unfold set_body, get_body. cbn [m_body with_body]. rewrite parse_print by now apply rust_value_wf. cbn [oerr rbind].
  rewrite value_of_canon; [reflexivity| |].
  - split; [now apply rust_value_wf|]. split; [now apply rust_value_sorted|]. now apply stable_iff.
  - now apply nested_depth.
Qed.

Lemma ordinary_start : forall l, ordinary (JObj l) -> plain_start l.
Proof. intros l H k v r ->. inversion H as [| | | | |? HL]; subst. apply (HL (k, v)). now left. Qed.
Lemma integers_stable_fact : forall R v, rust_value v -> integers_only v -> ordinary v -> stable R v.
Proof.
  intros R v HV HI. induction HI as [| | t Ht | | l HL IH | l HL IH]; intros HO; try constructor.
  - inversion HV; subst. now apply vnum_int.
  - intros x Hx. inversion HO; subst. apply IH; [exact Hx| |auto]. inversion HV; subst; auto.
  - now apply ordinary_start.
  - intros x Hx. inversion HO as [| | | | |? HX]; subst. apply IH; [exact Hx| |apply HX, Hx]. inversion HV; subst; auto.
Qed.
Lemma reads_integers : forall R j v, ordinary j -> integers_only j -> reads R j v -> integers_only v.
Proof.
  intros R. apply (json_rect2 (fun j => forall v, ordinary j -> integers_only j -> reads R j v -> integers_only v)).
  - intros v _ _ H. inversion H. constructor.
  - intros b v _ _ H. inversion H. constructor.
  - intros t v _ HI H. inversion HI; subst. inversion H as [| |? t' HN| | | |]; subst. inversion HN; subst; [now constructor|tauto].
  - intros e s v _ _ H. inversion H. constructor.
  - intros l IH v HO HI H. inversion H as [| | | |? l1 F1| |]; subst. constructor. intros y Hy. inversion HI as [| | | |? HL|]; subst. inversion HO as [| | | |? HX|]; subst.
    destruct (Forall2_In_r _ _ _ _ _ _ F1 Hy) as [x [Hx Hr]]. rewrite Forall_forall in IH. eapply IH; eauto.
  - intros l IH v HO HI H. inversion HO as [| | | | |? HX]; subst. inversion H as [| | | | |? e1 P1 S1 B1 C1 D1|]; subst.
    2: { exfalso. apply (HX (reserved_name, JStr e s)); [now left|reflexivity]. }
    constructor. intros [k y] Hy. inversion HI as [| | | | |? HL]; subst.
    destruct (B1 _ _ Hy) as [j [Hj Hr]]. rewrite Forall_forall in IH. apply last_binding_In in Hj. cbn. eapply (IH (k, j)); eauto. apply (HX _ Hj).
Qed.
