(** Facts about [Curve]: the ladder multiplies points, the two sides of a key agreement get the same bytes. *)

From Coq Require Import Ascii String ZArith NArith Znumtheory List Bool Lia Ring Field.
From Verif Require Import Bytes BytesFacts PrimeFacts Curve CurveField Edwards.
Local Open Scope fp_scope.

(** ** Coordinates *)

(** The Montgomery coordinate of a point of the Edwards curve, 0 for the neutral element. *)
Definition ucoord (P : point) : Fp := (1 + snd P) * Finv (1 - snd P).
(** [(X : Z)] stands for the point [P]. *)
Definition rep (X Z : Fp) (P : point) : Prop := exists s, s <> 0 /\ X = s * (1 + snd P) /\ Z = s * (1 - snd P).

Lemma Finv_zero : Finv 0 = 0.
Proof.
  rewrite Finv_def, F0_def. apply inj_eq. pose proof p_big as HB. eapply cong_trans; [apply cong_pow; [apply cong_val|lia]|].
  rewrite Z.pow_0_l by lia. apply cong_refl.
Qed.
Lemma Finv_mul : forall a b, a <> 0 -> Finv (a * b) = Finv a * Finv b.
Proof.
  intros a b HA. destruct (F_dec b 0) as [->|HB].
  - replace (a * 0) with 0 by ring. rewrite Finv_zero. ring.
  - apply (F_cancel (a * b)); [now apply F_mul_nz|]. replace (a * b * Finv (a * b)) with (Finv (a * b) * (a * b)) by ring.
    rewrite Finv_l by now apply F_mul_nz.
    replace (a * b * (Finv a * Finv b)) with (Finv a * a * (Finv b * b)) by ring. rewrite !Finv_l by assumption. ring.
Qed.
Lemma rep_ucoord : forall X Z P, rep X Z P -> X * Finv Z = ucoord P.
Proof.
  intros X Z P (s & HS & -> & ->). rewrite Finv_mul by exact HS. unfold ucoord.
  replace (s * (1 + snd P) * (Finv s * Finv (1 - snd P))) with (Finv s * s * ((1 + snd P) * Finv (1 - snd P))) by ring.
  rewrite Finv_l by exact HS. ring.
Qed.

(** ** Doubling *)

Lemma one_minus_dsq : forall y, 1 - ed * (y * y) <> 0.
Proof.
  intros y H. assert (E : ed * (y * y) = 1) by (replace (ed * (y * y)) with (1 - (1 - ed * (y * y))) by ring; rewrite H; ring).
  assert (HY : y <> 0) by (intros ->; apply F_one_zero; rewrite <- E; ring).
  apply (ed_nonsquare (Finv y)). apply (F_cancel (y * y)); [now apply F_mul_nz|].
  transitivity (Finv y * y * (Finv y * y)); [ring|]. rewrite Finv_l by exact HY. transitivity 1; [ring|].
  rewrite <- E. ring.
Qed.
Lemma ed_minus : 1 - ed <> 0.
Proof. intros H. apply ed_one. replace ed with (1 - (1 - ed)) by ring. rewrite H. ring. Qed.
Definition dbl_x (X Z : Fp) : Fp := (X + Z) * (X + Z) * ((X - Z) * (X - Z)).
Definition dbl_z (X Z : Fp) : Fp :=
  let e := (X + Z) * (X + Z) - (X - Z) * (X - Z) in e * ((X + Z) * (X + Z) + inj 121665 * e).
Lemma rep_double : forall X Z P, on P -> rep X Z P -> rep (dbl_x X Z) (dbl_z X Z) (padd P P).
Proof.
  intros X Z [x y] HP (s & HS & -> & ->). unfold on in HP. cbn [fst snd] in *.
  pose proof (complete_minus _ _ _ _ HP HP) as HD. pose proof ed_a24 as HA. pose proof ed_minus as HM. pose proof (one_minus_dsq y) as HN.
  assert (B : (1 - x*x) * (1 - ed*(y*y)) = y*y*(1 - ed)).
  { transitivity (1 - ed*(y*y) - x*x + ed*x*x*y*y); [ring|].
    replace (1 - ed*(y*y) - x*x + ed*x*x*y*y) with (1 + ed*x*x*y*y - x*x - ed*(y*y)) by ring. rewrite <- HP. ring. }
  assert (DE : 1 - ed*x*x*y*y = 1 + 1 - x*x - y*y).
  { replace (1 - ed*x*x*y*y) with (1 + 1 - (1 + ed*x*x*y*y)) by ring. rewrite <- HP. ring. }
  unfold rep. cbn [padd fst snd]. remember (1 - ed*x*x*y*y) as D eqn:ED. clear ED.
  remember (Finv (1 - ed)) as k eqn:EK. assert (HK : k * (1 - ed) = 1) by (rewrite EK; now apply Finv_l). clear EK.
  assert (A24 : inj 121665 = ed * k).
  { apply (F_cancel (1 - ed)); [exact HM|]. transitivity ed; [rewrite <- HA at 2; ring|]. transitivity (ed * (k * (1 - ed))); [rewrite HK; ring|ring]. }
  assert (HY : (y*y - x*x) / D * D = y*y - x*x) by now apply F_div_mul.
  remember ((y*y - x*x) / D) as v eqn:EV. clear EV.
  assert (V1 : D * (1 + v) = (1 + 1) * (1 - x*x)) by (transitivity (D + v * D); [ring|]; rewrite HY, DE; ring).
  assert (V2 : D * (1 - v) = (1 + 1) * (1 - y*y)) by (transitivity (D - v * D); [ring|]; rewrite HY, DE; ring).
  exists ((1+1)*(1+1)*(1+1)*(s*s*s*s)*(1 - ed*(y*y))*D*k). split; [|split].
  - assert (KN : k <> 0) by (intros C; apply F_one_zero; rewrite <- HK, C; ring).
    pose proof F_two. repeat apply F_mul_nz; assumption.
  - unfold dbl_x. transitivity ((1+1)*(1+1)*(1+1)*(1+1)*(s*s*s*s)*(y*y)); [ring|].
    transitivity ((1+1)*(1+1)*(1+1)*(s*s*s*s)*(1 - ed*(y*y))*k*(D*(1+v))); [|ring]. rewrite V1.
    transitivity ((1+1)*(1+1)*(1+1)*(1+1)*(s*s*s*s)*k*((1 - x*x)*(1 - ed*(y*y)))); [|ring]. rewrite B.
    transitivity ((1+1)*(1+1)*(1+1)*(1+1)*(s*s*s*s)*(y*y)*(k*(1-ed))); [rewrite HK; ring|ring].
  - unfold dbl_z. rewrite A24. transitivity ((1+1)*(1+1)*(1+1)*(1+1)*(s*s*s*s)*(1 - y*y)*(1 + ed*k*(1 - y*y))); [ring|].
    transitivity ((1+1)*(1+1)*(1+1)*(s*s*s*s)*(1 - ed*(y*y))*k*(D*(1-v))); [|ring]. rewrite V2.
    replace (1 + ed*k*(1 - y*y)) with (k*(1 - ed) + ed*k*(1 - y*y)) by (rewrite HK; ring). ring.
Qed.

(** ** Differential addition *)

Lemma F_double_zero : forall x, x + x = 0 -> x = 0.
Proof. intros x H. apply (F_cancel (1 + 1)); [exact F_two|]. transitivity (x + x); [ring|]. rewrite H. ring. Qed.
Lemma F_square_zero : forall x, x * x = 0 -> x = 0.
Proof. intros x H. apply F_mul_zero in H. tauto. Qed.
Definition add_p (X2 Z2 X3 Z3 : Fp) : Fp := (X3 - Z3) * (X2 + Z2) + (X3 + Z3) * (X2 - Z2).
Definition add_m (X2 Z2 X3 Z3 : Fp) : Fp := (X3 - Z3) * (X2 + Z2) - (X3 + Z3) * (X2 - Z2).
Lemma rep_add : forall u X2 Z2 X3 Z3 P2 P3 yd, on P2 -> on P3 -> rep X2 Z2 P2 -> rep X3 Z3 P3 ->
  snd (padd P3 (popp P2)) = yd -> u * (1 - yd) = 1 + yd -> yd <> 1 -> u <> 0 ->
  rep (add_p X2 Z2 X3 Z3 * add_p X2 Z2 X3 Z3) (u * (add_m X2 Z2 X3 Z3 * add_m X2 Z2 X3 Z3)) (padd P2 P3).
Proof.
  intros u X2 Z2 X3 Z3 [x2 y2] [x3 y3] yd H2 H3 (s2 & S2 & -> & ->) (s3 & S3 & -> & ->) HYD HU HD1 HU0.
  unfold on, rep in *. cbn [popp fst snd padd] in *. pose proof (differential _ _ _ _ _ H2 H3) as HDF.
  pose proof (complete_plus _ _ _ _ H2 H3) as HP. pose proof (complete_minus _ _ _ _ H2 H3) as HM.
  assert (DD : yd * (1 + ed*x2*x3*y2*y3) = y2*y3 + x2*x3).
  { rewrite <- HYD. replace (1 - ed*x3*(- x2)*y3*y2) with (1 + ed*x2*x3*y2*y3) by ring. rewrite F_div_mul by exact HP. ring. }
  assert (DS : (y2*y3 - x2*x3) / (1 - ed*x2*x3*y2*y3) * (1 - ed*x2*x3*y2*y3) = y2*y3 - x2*x3) by now apply F_div_mul.
  clear HYD. remember ((y2*y3 - x2*x3) / (1 - ed*x2*x3*y2*y3)) as ys eqn:EY. clear EY.
  assert (CORE : (y2+y3)*(y2+y3)*(1 - ys) = u*((y3-y2)*(y3-y2))*(1 + ys)).
  { apply (F_cancel (1 - yd)); [intros C; apply HD1; replace yd with (1 - (1 - yd)) by ring; rewrite C; ring|].
    apply (F_cancel ((1 - ed*x2*x3*y2*y3) * (1 + ed*x2*x3*y2*y3))); [now apply F_mul_nz|].
    transitivity ((y2+y3)*(y2+y3)*(((1 - ed*x2*x3*y2*y3) - ys*(1 - ed*x2*x3*y2*y3)) * ((1 + ed*x2*x3*y2*y3) - yd*(1 + ed*x2*x3*y2*y3)))); [ring|].
    rewrite DS, DD.
    transitivity ((y3-y2)*(y3-y2)*(((1 - ed*x2*x3*y2*y3) + ys*(1 - ed*x2*x3*y2*y3)) * ((1 + ed*x2*x3*y2*y3) + yd*(1 + ed*x2*x3*y2*y3)))); [rewrite DS, DD; exact HDF|].
    transitivity ((y3-y2)*(y3-y2)*((1 - ed*x2*x3*y2*y3) * (1 + ed*x2*x3*y2*y3))*(1 + ys)*(1 + yd)); [ring|]. rewrite <- HU. ring. }
  remember (Finv (1 + 1)) as h eqn:EH. assert (HH : h * (1 + 1) = 1) by (rewrite EH; apply Finv_l; exact F_two). clear EH.
  remember ((y2+y3)*(y2+y3)) as A eqn:EA. remember ((y3-y2)*(y3-y2)) as B eqn:EB.
  remember ((1+1)*(1+1)*(s2*s3)) as c eqn:EC.
  assert (CN : c <> 0) by (rewrite EC; pose proof F_two; repeat apply F_mul_nz; assumption).
  assert (K1 : h*(A + u*B)*(1 + ys) = A).
  { transitivity (h*(A*(1 + ys) + u*B*(1 + ys))); [ring|]. rewrite <- CORE. transitivity (h*(1+1)*A); [ring|]. rewrite HH. ring. }
  assert (K2 : h*(A + u*B)*(1 - ys) = u*B).
  { transitivity (h*(A*(1 - ys) + u*B*(1 - ys))); [ring|]. rewrite CORE. transitivity (h*(1+1)*(u*B)); [ring|]. rewrite HH. ring. }
  exists (c*c*(h*(A + u*B))). split; [|split].
  - apply F_mul_nz; [now apply F_mul_nz|]. intros C. assert (A0 : A = 0) by (rewrite <- K1, C; ring).
    assert (B0 : u*B = 0) by (rewrite <- K2, C; ring). apply F_mul_zero in B0. destruct B0 as [B0|B0]; [contradiction|].
    rewrite EA in A0. rewrite EB in B0. apply F_square_zero in A0. apply F_square_zero in B0.
    assert (Y3 : y3 = 0) by (apply F_double_zero; transitivity ((y2+y3)+(y3-y2)); [ring|]; rewrite A0, B0; ring).
    assert (Y2 : y2 = 0) by (transitivity ((y2+y3)-y3); [ring|]; rewrite A0, Y3; ring).
    clear K1 K2 CORE EA EB HDF DS HM HP. subst y2 y3.
    assert (X2S : x2*x2 = 1) by (transitivity (x2*x2+0*0); [ring|]; rewrite H2; ring).
    assert (X3S : x3*x3 = 1) by (transitivity (x3*x3+0*0); [ring|]; rewrite H3; ring).
    assert (YD : yd = x2*x3) by (transitivity (yd * (1 + ed*x2*x3*0*0)); [ring|]; rewrite DD; ring).
    assert (SQ : (1 - yd)*(1 + yd) = 0).
    { rewrite YD. transitivity (1 - x2*x2*(x3*x3)); [ring|]. rewrite X2S, X3S. ring. }
    apply F_mul_zero in SQ. destruct SQ as [SQ|SQ].
    + apply HD1. transitivity (1 - (1 - yd)); [ring|]. rewrite SQ. ring.
    + rewrite SQ in HU. apply F_mul_zero in HU. destruct HU as [HU|HU]; [contradiction|].
      apply HD1. transitivity (1 - (1 - yd)); [ring|]. rewrite HU. ring.
  - transitivity (c*c*A); [unfold add_p; rewrite EC, EA; ring|]. rewrite <- K1 at 1. ring.
  - transitivity (c*c*(u*B)); [unfold add_m; rewrite EC, EB; ring|]. rewrite <- K2 at 1. ring.
Qed.

(** ** The ladder *)

Definition state_rep (s : ladder_state) (P Q : point) : Prop :=
  rep (inj (l_x2 s)) (inj (l_z2 s)) P /\ rep (inj (l_x3 s)) (inj (l_z3 s)) Q.
Lemma step_rep : forall u s P Q yd, on P -> on Q -> state_rep s P Q -> snd (padd Q (popp P)) = yd ->
  inj u * (1 - yd) = 1 + yd -> yd <> 1 -> inj u <> 0 -> state_rep (ladder_step u s) (padd P P) (padd P Q).
Proof.
  intros u s P Q yd HP HQ (R2 & R3) HY HU H1 H0. unfold state_rep, ladder_step. cbn [l_x2 l_z2 l_x3 l_z3].
  rewrite ?inj_fmul, ?inj_fadd, ?inj_fsub, ?inj_fmul, ?inj_fadd, ?inj_fsub, ?inj_fmul, ?inj_fadd, ?inj_fsub, ?inj_fmul, ?inj_fadd, ?inj_fsub.
  split.
  - exact (rep_double _ _ _ HP R2).
  - exact (rep_add _ _ _ _ _ _ _ _ HP HQ R2 R3 HY HU H1 H0).
Qed.
Lemma mod_bit : forall k n, (0 <= n -> k mod 2 ^ (Z.succ n) = 2 ^ n * Z.b2z (Z.testbit k n) + k mod 2 ^ n)%Z.
Proof.
  intros k n HN. rewrite Z.pow_succ_r by exact HN. rewrite (Z.mul_comm 2). rewrite Z.rem_mul_r by (try apply Z.pow_nonzero; lia).
  rewrite Z.testbit_spec' by exact HN. ring.
Qed.
Lemma cswap_xorb : forall a b s, cswap (xorb a b) s = cswap b (cswap a s).
Proof. intros [|] [|] [x2 z2 x3 z3]; reflexivity. Qed.
Lemma popp_double : forall P Q, on P -> on Q -> padd (padd P Q) (popp P) = Q.
Proof.
  intros P Q HP HQ. rewrite (padd_comm P Q), padd_assoc by auto using on_popp. rewrite padd_opp by exact HP. apply padd_zero_r.
Qed.
Lemma popp_step : forall P Q, on P -> on Q -> padd P (popp (padd P Q)) = popp Q.
Proof.
  intros P Q HP HQ. pose proof (on_padd _ _ HP HQ) as HR. pose proof (on_popp _ HR) as HO. pose proof (on_popp _ HQ) as HOQ.
  assert (E : P = padd (padd P Q) (popp Q)) by (rewrite padd_assoc, padd_opp, padd_zero_r by assumption; reflexivity).
  rewrite E at 1. rewrite (padd_comm (padd P Q)), padd_assoc, padd_opp, padd_zero_r by assumption. reflexivity.
Qed.
Lemma ladder_rep : forall P u k n swap s m, on P -> snd P <> 1 -> inj u <> 0 -> inj u * (1 - snd P) = 1 + snd P ->
  state_rep (cswap swap s) (pmul m P) (pmul (S m) P) ->
  forall m', (Z.of_nat m' = Z.of_nat m * 2 ^ Z.of_nat n + k mod 2 ^ Z.of_nat n)%Z ->
  state_rep (ladder u k n swap s) (pmul m' P) (pmul (S m') P).
Proof.
  intros P u k n. induction n as [|n IH]; intros swap s m HP H1 H0 HU HS m' HM.
  - cbn [ladder]. change (Z.of_nat 0) with 0%Z in HM. rewrite Z.pow_0_r, Z.mod_1_r in HM. assert (m' = m) by lia. subst m'. exact HS.
  - cbn [ladder]. cbv zeta. rewrite cswap_xorb. rewrite Nat2Z.inj_succ in HM. rewrite mod_bit in HM by lia.
    rewrite Z.pow_succ_r in HM by lia.
    destruct (Z.testbit k (Z.of_nat n)) eqn:EB; cbn [Z.b2z] in HM.
    + apply (IH true _ (S (m + m)) HP H1 H0 HU); [|lia]. destruct HS as (S2 & S3). revert S2 S3. generalize (cswap swap s). intros t S2 S3.
      assert (T : state_rep (ladder_step u (cswap true t)) (padd (pmul (S m) P) (pmul (S m) P)) (padd (pmul (S m) P) (pmul m P))).
      { apply step_rep with (yd := snd P); auto using on_pmul.
        - split; [exact S3|exact S2].
        - cbn [pmul]. rewrite popp_step by auto using on_pmul. reflexivity. }
      rewrite <- !pmul_add in T by exact HP. destruct T as (T2 & T3).
      replace (S m + S m)%nat with (S (S (m + m))) in T2 by lia. replace (S m + m)%nat with (S (m + m)) in T3 by lia.
      split; [exact T3|exact T2].
    + apply (IH false _ (m + m)%nat HP H1 H0 HU); [|lia]. revert HS. generalize (cswap swap s). intros t HS.
      assert (T : state_rep (ladder_step u t) (padd (pmul m P) (pmul m P)) (padd (pmul m P) (pmul (S m) P))).
      { apply step_rep with (yd := snd P); auto using on_pmul. cbn [pmul]. rewrite popp_double by auto using on_pmul. reflexivity. }
      rewrite <- !pmul_add in T by exact HP. replace (m + S m)%nat with (S (m + m)) in T by lia. exact T.
Qed.

(** The coordinate 0: the ladder returns 0. *)
Definition degenerate (s : ladder_state) : Prop := inj (l_x2 s) * inj (l_z2 s) = 0 /\ inj (l_x3 s) * inj (l_z3 s) = 0.
Lemma step_degenerate : forall s, degenerate s -> degenerate (ladder_step 0 s).
Proof.
  intros s (H2 & H3). unfold degenerate, ladder_step. cbn [l_x2 l_z2 l_x3 l_z3].
  rewrite ?inj_fmul, ?inj_fadd, ?inj_fsub, ?inj_fmul, ?inj_fadd, ?inj_fsub, ?inj_fmul, ?inj_fadd, ?inj_fsub, ?inj_fmul, ?inj_fadd, ?inj_fsub.
  rewrite <- F0_def. split; [|ring].
  remember (inj (l_x2 s)) as X eqn:EX. remember (inj (l_z2 s)) as Z eqn:EZ. clear EX EZ H3.
  assert (E : (X + Z) * (X + Z) - (X - Z) * (X - Z) = 0) by (transitivity ((1+1)*(1+1)*(X*Z)); [ring|]; rewrite H2; ring).
  rewrite E. ring.
Qed.
Lemma cswap_degenerate : forall b s, degenerate s -> degenerate (cswap b s).
Proof. intros [|] s (H2 & H3); split; assumption. Qed.
Lemma ladder_degenerate : forall k n swap s, degenerate s -> degenerate (ladder 0 k n swap s).
Proof.
  intros k n. induction n as [|n IH]; intros swap s H; cbn [ladder]; cbv zeta; [now apply cswap_degenerate|].
  apply IH. apply step_degenerate. now apply cswap_degenerate.
Qed.

(** ** Scalar multiplication *)

Lemma scalar_mult_range : forall k u, (0 <= scalar_mult k u < p25519)%Z.
Proof. intros k u. unfold scalar_mult, fmul. apply Z.mod_pos_bound. reflexivity. Qed.
Lemma val_scalar : forall k u v, inj (scalar_mult k u) = v -> scalar_mult k u = val v.
Proof. intros k u v H. rewrite <- H, val_inj. symmetry. apply Z.mod_small. apply scalar_mult_range. Qed.
Lemma scalar_mult_zero : forall k, scalar_mult k 0 = 0%Z.
Proof.
  intros k. transitivity (val (inj 0)); [|reflexivity]. apply val_scalar. unfold scalar_mult. cbv zeta.
  rewrite inj_fmul, inj_finv. rewrite <- F0_def.
  assert (H : degenerate (ladder 0 k 255 false {| l_x2 := 1; l_z2 := 0; l_x3 := 0; l_z3 := 1 |})).
  { apply ladder_degenerate. split; cbn [l_x2 l_z2 l_x3 l_z3]; rewrite <- F0_def, <- F1_def; ring. }
  destruct H as [H _]. apply F_mul_zero in H. destruct H as [->| ->]; [ring|]. rewrite Finv_zero. ring.
Qed.
Lemma ucoord_val : forall P, snd P <> 1 -> ucoord P * (1 - snd P) = 1 + snd P.
Proof.
  intros P H. unfold ucoord. transitivity ((1 + snd P) * (Finv (1 - snd P) * (1 - snd P))); [ring|]. rewrite Finv_l; [ring|].
  intros C. apply H. transitivity (1 - (1 - snd P)); [ring|]. rewrite C. ring.
Qed.
Lemma scalar_mult_point : forall k P, (0 <= k < 2 ^ 255)%Z -> on P -> ucoord P <> 0 ->
  scalar_mult k (val (ucoord P)) = val (ucoord (pmul (Z.to_nat k) P)).
Proof.
  intros k P HK HP HU. apply val_scalar. unfold scalar_mult. cbv zeta. rewrite inj_fmul, inj_finv. apply rep_ucoord.
  assert (H1 : snd P <> 1).
  { intros C. apply HU. unfold ucoord. rewrite C. replace (1 - 1) with 0 by ring. rewrite Finv_zero. ring. }
  apply (ladder_rep P (val (ucoord P)) k 255 false _ 0); rewrite ?inj_val; auto using ucoord_val.
  - cbn [cswap]. split; cbn [l_x2 l_z2 l_x3 l_z3].
    + exists (Finv (1 + 1)). assert (HH : Finv (1 + 1) * (1 + 1) = 1) by (apply Finv_l; exact F_two). cbn [pmul pzero snd]. split; [|split].
      * intros C. apply F_one_zero. rewrite <- HH, C. ring.
      * rewrite <- F1_def. now rewrite HH.
      * rewrite <- F0_def. ring.
    + cbn [pmul]. rewrite padd_comm, padd_zero_r. exists (Finv (1 - snd P)).
      assert (N : 1 - snd P <> 0) by (intros C; apply H1; transitivity (1 - (1 - snd P)); [ring|]; rewrite C; ring). split; [|split].
      * intros C. apply F_one_zero. rewrite <- (Finv_l _ N), C. ring.
      * rewrite inj_val. unfold ucoord. ring.
      * rewrite Finv_l by exact N. now rewrite F1_def.
  - rewrite Z2Nat.id by lia. change (Z.of_nat 255) with 255%Z. rewrite Z.mod_small by exact HK. reflexivity.
Qed.

(** Points whose coordinate is 0 have order one or two. *)
Lemma ucoord_zero : forall P, on P -> ucoord P = 0 -> padd P P = pzero.
Proof.
  intros [x y] HP H. unfold ucoord in H. cbn [snd] in H. unfold on in HP. cbn [fst snd] in HP.
  assert (Y : y*y = 1).
  { apply F_mul_zero in H. assert (C : 1 + y = 0 \/ 1 - y = 0).
    { destruct H as [H|H]; [now left|]. right. destruct (F_dec (1 - y) 0) as [C|C]; [exact C|]. exfalso. apply F_one_zero.
      rewrite <- (Finv_l _ C), H. ring. }
    destruct C as [C|C]; [transitivity (1 - (1 - y)*(1 + y))|transitivity (1 - (1 - y)*(1 + y))]; try ring; rewrite C; ring. }
  assert (X : x = 0).
  { apply F_square_zero. apply (F_cancel (1 - ed)); [exact ed_minus|].
    transitivity (x*x + y*y - ed*x*x*(y*y) - y*y + (ed*x*x*(y*y) - ed*x*x)); [ring|].
    replace (ed*x*x*(y*y)) with (ed*x*x*y*y) by ring. rewrite HP. replace (ed*x*x*y*y) with (ed*x*x*(y*y)) by ring. rewrite Y. ring. }
  subst x. unfold pzero. cbn [padd]. replace (0*y+y*0) with 0 by ring. replace (y*y-0*0) with 1 by (transitivity (y*y); [now rewrite Y|ring]).
  replace (1+ed*0*0*y*y) with 1 by ring. replace (1-ed*0*0*y*y) with 1 by ring. now rewrite !F_div_one.
Qed.
Lemma pmul_zero : forall n, pmul n pzero = pzero.
Proof. induction n as [|n IH]; [reflexivity|]. cbn [pmul]. rewrite IH. apply padd_zero_r. Qed.
Lemma ucoord_pzero : ucoord pzero = 0.
Proof. unfold ucoord, pzero. cbn [snd]. replace (1 - 1) with 0 by ring. rewrite Finv_zero. ring. Qed.
Lemma pmul_even : forall n P, on P -> padd P P = pzero -> pmul (n * 2) P = pzero.
Proof.
  intros n P HP H. rewrite <- pmul_pmul by exact HP. cbn [pmul]. rewrite (padd_comm pzero P), padd_zero_r, H. apply pmul_zero.
Qed.
Lemma scalar_mult_even : forall k P, (0 <= k < 2 ^ 255)%Z -> (k mod 2 = 0)%Z -> on P ->
  scalar_mult k (val (ucoord P)) = val (ucoord (pmul (Z.to_nat k) P)).
Proof.
  intros k P HK H2 HP. destruct (F_dec (ucoord P) 0) as [C|C]; [|now apply scalar_mult_point].
  assert (E : exists n, Z.to_nat k = (n * 2)%nat).
  { exists (Z.to_nat (k / 2)). rewrite <- (Z2Nat.inj_mul _ 2); [|apply Z.div_pos; lia|lia]. f_equal. pose proof (Z.div_mod k 2). lia. }
  destruct E as [n ->]. rewrite (pmul_even n P HP (ucoord_zero P HP C)), ucoord_pzero, C.
  replace (val 0) with 0%Z by (rewrite F0_def; reflexivity). apply scalar_mult_zero.
Qed.

(** ** The base point *)

Definition base_x : Z := 9771384041963202563870679428059935816164187996444183106833894008023910952347.
Definition base_y : Z := 46316835694926478169428394003475163141307993866256225615783033603165251855960.
Definition base : point := (inj base_x, inj base_y).
Lemma on_base : on base.
Proof.
  unfold on, on_curve, base. cbn [fst snd]. apply (F_cancel (inj 121666)); [apply inj_small_nz; lia|].
  transitivity (inj 121666 + ed * inj 121666 * inj base_x * inj base_x * inj base_y * inj base_y); [|rewrite F1_def; rewrite <- F1_def; ring].
  rewrite ed_eq. rewrite <- !inj_mul, <- !inj_add, <- !inj_mul. apply inj_eq. exists (-430434123840177898190331989021108937012179019779017071042615526905443327345567468059800516335447916531857615342203911016706324000099752528482764205414210336177335862638535162763469414757614110195406478541890102020329648416957469390928)%Z. vm_compute. reflexivity.
Qed.
Lemma ucoord_base : ucoord base = inj 9.
Proof.
  assert (N : 1 - inj base_y <> 0).
  { intros C. rewrite F1_def, F0_def, <- inj_sub in C. apply inj_eq in C. apply cong_mod_eq in C; [|reflexivity]. vm_compute in C. discriminate C. }
  apply (F_cancel (1 - inj base_y)); [exact N|]. unfold ucoord, base. cbn [snd].
  transitivity ((1 + inj base_y) * (Finv (1 - inj base_y) * (1 - inj base_y))); [ring|]. rewrite Finv_l by exact N.
  transitivity (1 + inj base_y); [ring|]. rewrite F1_def. rewrite <- inj_add, <- inj_sub, <- inj_mul. apply inj_eq. exists (8)%Z. vm_compute. reflexivity.
Qed.

(** ** Bytes *)

Lemma le_encode_length : forall n x, String.length (le_encode n x) = n.
Proof. induction n as [|n IH]; intros x; cbn [le_encode String.length]; [reflexivity|]. now rewrite IH. Qed.
Lemma le_decode_nonneg : forall s, (0 <= le_decode s)%Z.
Proof. induction s as [|c s IH]; cbn [le_decode]; lia. Qed.
Lemma le_decode_encode : forall n x, (0 <= x < 256 ^ Z.of_nat n)%Z -> le_decode (le_encode n x) = x.
Proof.
  induction n as [|n IH]; intros x HX.
  - change (256 ^ Z.of_nat 0)%Z with 1%Z in HX. cbn [le_encode le_decode]. lia.
  - rewrite Nat2Z.inj_succ, Z.pow_succ_r in HX by lia. cbn [le_encode le_decode]. pose proof (Z.mod_pos_bound x 256 ltac:(lia)) as HM.
    rewrite code_chr by lia. rewrite Z2N.id by lia. rewrite IH.
    + pose proof (Z.div_mod x 256). lia.
    + split; [apply Z.div_pos; lia|]. apply Z.div_lt_upper_bound; lia.
Qed.
Lemma decode_encode : forall v : Fp, decode_u (le_encode 32 (val v)) = val v.
Proof.
  intros v. pose proof (val_bound v) as HV. unfold decode_u. rewrite le_decode_encode.
  - rewrite (Z.mod_small (val v)); [apply Z.mod_small; exact HV|]. split; [apply HV|]. eapply Z.lt_trans; [apply HV|]. reflexivity.
  - split; [apply HV|]. eapply Z.lt_trans; [apply HV|]. reflexivity.
Qed.
Lemma clamp_range : forall s, (2 ^ 254 <= clamp s < 2 ^ 255)%Z.
Proof.
  intros s. unfold clamp. cbv zeta. generalize (le_decode s). intros n.
  assert (H : ((n mod 2 ^ 254) mod 8 = n mod 8)%Z).
  { symmetry. apply Zmod_div_mod; [reflexivity|reflexivity|]. exists (2 ^ 251)%Z. reflexivity. }
  pose proof (Z.mod_pos_bound n (2 ^ 254) ltac:(reflexivity)) as H1. pose proof (Z.mod_le (n mod 2 ^ 254) 8 (proj1 H1) ltac:(lia)) as H2.
  pose proof (Z.mod_pos_bound n 8 ltac:(lia)) as H3.
  rewrite H in H2. replace (2 ^ 255)%Z with (2 ^ 254 + 2 ^ 254)%Z by reflexivity. lia.
Qed.
Lemma clamp_eight : forall s, (clamp s mod 8 = 0)%Z.
Proof.
  intros s. unfold clamp. cbv zeta. generalize (le_decode s). intros n.
  assert (H : ((n mod 2 ^ 254) mod 8 = n mod 8)%Z).
  { symmetry. apply Zmod_div_mod; [reflexivity|reflexivity|]. exists (2 ^ 251)%Z. reflexivity. }
  rewrite <- H. replace (2 ^ 254)%Z with (2 ^ 251 * 8)%Z at 3 by reflexivity. rewrite Z.mod_add by lia. rewrite Zminus_mod, Z.mod_mod by lia. now rewrite Z.sub_diag.
Qed.
Lemma clamp_even : forall s, (clamp s mod 2 = 0)%Z.
Proof.
  intros s. pose proof (clamp_eight s) as H. rewrite (Zmod_div_mod 2 8 (clamp s)); [now rewrite H|lia|lia|]. exists 4%Z. reflexivity.
Qed.

(** ** Key agreement *)

Lemma x25519_point : forall k P, on P -> x25519 k (le_encode 32 (val (ucoord P))) = le_encode 32 (val (ucoord (pmul (Z.to_nat (clamp k)) P))).
Proof.
  intros k P HP. unfold x25519. rewrite decode_encode. f_equal. apply scalar_mult_even; [|apply clamp_even|exact HP].
  pose proof (clamp_range k). assert (0 <= 2 ^ 254)%Z by discriminate. lia.
Qed.
Lemma x25519_base_point : forall k, x25519_base k = le_encode 32 (val (ucoord (pmul (Z.to_nat (clamp k)) base))).
Proof.
  intros k. unfold x25519_base. rewrite <- x25519_point by exact on_base. rewrite ucoord_base.
  replace (val (inj 9)) with 9%Z by reflexivity. reflexivity.
Qed.
Lemma x25519_comm : forall a b, x25519 a (x25519_base b) = x25519 b (x25519_base a).
Proof.
  intros a b. rewrite !x25519_base_point, !x25519_point, !pmul_pmul by auto using on_pmul, on_base. now rewrite Nat.mul_comm.
Qed.
Lemma x25519_length : forall k u, String.length (x25519 k u) = 32%nat.
Proof. intros k u. apply le_encode_length. Qed.
Lemma x25519_base_length : forall k, String.length (x25519_base k) = 32%nat.
Proof. intros k. unfold x25519_base. apply x25519_length. Qed.
Lemma x25519_def : forall k p, x25519 k p = le_encode 32 (scalar_mult (clamp k) (decode_u p)).
Proof. reflexivity. Qed.
Global Opaque x25519 x25519_base le_encode scalar_mult.
