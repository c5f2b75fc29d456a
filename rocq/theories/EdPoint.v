(** The points of Ed25519 and their texts against the group of Edwards.v. *)

From Coq Require Import Ascii String ZArith Znumtheory NArith List Bool Lia Ring Field.
From Verif Require Import Bytes BytesFacts JsonFacts PrimeFacts Curve CurveField Edwards CurveFacts Ed25519.
Local Open Scope fp_scope.
(** ** Ranges *)

Lemma some_same : forall (A : Type) (x y : A), Some x = Some y -> x = y.
Proof. intros A x y H. now injection H. Qed.
Lemma fmul_range : forall x y, (0 <= fmul x y < p25519)%Z.
Proof. intros x y. apply Z.mod_pos_bound. reflexivity. Qed.
Lemma fsub_range : forall x y, (0 <= fsub x y < p25519)%Z.
Proof. intros x y. apply Z.mod_pos_bound. reflexivity. Qed.
Lemma fsub_zero : forall r, (0 < r < p25519)%Z -> fsub 0 r = (p25519 - r)%Z.
Proof.
  intros r HR. unfold fsub. replace (0 - r)%Z with (p25519 - r + (-1) * p25519)%Z by ring. rewrite Z.mod_add by (intros C; discriminate C).
  apply Z.mod_small. lia.
Qed.
Local Opaque fadd fsub fmul fpow finv p25519 sqrt_m1 edwards_d.

(** ** Constants *)

Lemma im_exists : {i : Fp | i = inj sqrt_m1}.
Proof. exists (inj sqrt_m1). reflexivity. Qed.
Definition im : Fp := proj1_sig im_exists.
Lemma im_def : im = inj sqrt_m1.
Proof. exact (proj2_sig im_exists). Qed.
Lemma im_sq : im * im = - (1).
Proof.
  rewrite im_def. rewrite F1_def. rewrite <- inj_opp, <- inj_mul. apply inj_eq. exists (6690407189080634018507799843845558368979872843924222843531373839242004886245)%Z. vm_compute. reflexivity.
Qed.
Global Opaque im.
Lemma d_eq : inj edwards_d = - ed.
Proof.
  apply (F_cancel (inj 121666)); [apply inj_small_nz; lia|]. transitivity (- (ed * inj 121666)); [|ring]. rewrite ed_eq.
  rewrite <- inj_mul, <- inj_opp. apply inj_eq. exists (77955)%Z. vm_compute. reflexivity.
Qed.
Lemma im_plus : 1 + im <> 0.
Proof.
  intros H. apply F_two. assert (E : (1 + im) * (1 - im) = 1 - im * im) by ring. rewrite im_sq, H in E.
  transitivity (1 - - (1)); [ring|]. rewrite <- E. ring.
Qed.
Lemma opp_zero : forall x : Fp, - x = 0 -> x = 0.
Proof. intros x H. transitivity (- - x); [ring|]. rewrite H. ring. Qed.

(** ** Coordinates *)

(** [p] stands for the point [P]; the first coordinates differ by a root of -1. *)
Definition erep (p : ext) (P : point) : Prop :=
  inj (e_z p) <> 0 /\ inj (e_x p) = im * fst P * inj (e_z p) /\ inj (e_y p) = snd P * inj (e_z p) /\
  inj (e_t p) = im * fst P * snd P * inj (e_z p).

Lemma erep_zero : erep ext_zero pzero.
Proof.
  unfold erep, ext_zero, pzero. cbn [e_x e_y e_z e_t fst snd]. rewrite <- F0_def, <- F1_def. split; [exact F_one_zero|]. split; [ring|]. split; ring.
Qed.
Lemma erep_base : erep ext_base base.
Proof.
  assert (H : inj (e_x ext_base) = im * inj base_x).
  { rewrite im_def, <- inj_mul. apply inj_eq. exists (-3321680910507071340304322819415477914899002507911085125008016177616732041358)%Z. vm_compute. reflexivity. }
  unfold erep. change (e_z ext_base) with 1%Z. change (e_y ext_base) with base_y.
  change (e_t ext_base) with (fmul (e_x ext_base) base_y). rewrite inj_fmul, H. unfold base. cbn [fst snd]. rewrite <- F1_def.
  split; [exact F_one_zero|]. split; [ring|]. split; ring.
Qed.
Lemma erep_neg : forall p P, erep p P -> erep (ext_neg p) (popp P).
Proof.
  intros p P [HZ [HX [HY HT]]]. unfold erep, ext_neg, popp. cbn [e_x e_y e_z e_t fst snd]. rewrite !inj_fsub, <- F0_def, HX, HT, HY.
  split; [exact HZ|]. split; [ring|]. split; ring.
Qed.
Lemma erep_add : forall p q P Q, on P -> on Q -> erep p P -> erep q Q -> erep (ext_add p q) (padd P Q).
Proof.
  intros p q [x1 y1] [x2 y2] OP OQ [HZ1 [HX1 [HY1 HT1]]] [HZ2 [HX2 [HY2 HT2]]].
  pose proof (complete_plus _ _ _ _ OP OQ) as NP. pose proof (complete_minus _ _ _ _ OP OQ) as NM. clear OP OQ.
  cbn [fst snd] in *. unfold erep, ext_add. cbv zeta. cbn [e_x e_y e_z e_t]. rewrite !inj_fmul, !inj_fsub, !inj_fadd, !inj_fmul, !inj_fsub, !inj_fadd, d_eq.
  rewrite HX1, HX2, HY1, HY2, HT1, HT2. clear HX1 HX2 HY1 HY2 HT1 HT2. generalize dependent (inj (e_z p)). intros z1 HZ1.
  generalize dependent (inj (e_z q)). intros z2 HZ2. cbn [padd fst snd].
  assert (EF : (z1 + z1) * z2 - im * x1 * y1 * z1 * (- ed + - ed) * (im * x2 * y2 * z2) = (1 + 1) * z1 * z2 * (1 - ed * x1 * x2 * y1 * y2)).
  { transitivity ((1 + 1) * z1 * z2 * (1 + im * im * (ed * x1 * x2 * y1 * y2))); [ring|]. rewrite im_sq. ring. }
  assert (EG : (z1 + z1) * z2 + im * x1 * y1 * z1 * (- ed + - ed) * (im * x2 * y2 * z2) = (1 + 1) * z1 * z2 * (1 + ed * x1 * x2 * y1 * y2)).
  { transitivity ((1 + 1) * z1 * z2 * (1 - im * im * (ed * x1 * x2 * y1 * y2))); [ring|]. rewrite im_sq. ring. }
  rewrite EF, EG. clear EF EG.
  assert (EE : (y1 * z1 + im * x1 * z1) * (y2 * z2 + im * x2 * z2) - (y1 * z1 - im * x1 * z1) * (y2 * z2 - im * x2 * z2) =
    (1 + 1) * im * z1 * z2 * (x1 * y2 + y1 * x2)) by ring.
  assert (EH : (y1 * z1 + im * x1 * z1) * (y2 * z2 + im * x2 * z2) + (y1 * z1 - im * x1 * z1) * (y2 * z2 - im * x2 * z2) =
    (1 + 1) * z1 * z2 * (y1 * y2 - x1 * x2)).
  { transitivity ((1 + 1) * z1 * z2 * (y1 * y2 + im * im * (x1 * x2))); [ring|]. rewrite im_sq. ring. }
  rewrite EE, EH. clear EE EH. generalize dependent (1 + ed * x1 * x2 * y1 * y2). intros D1 NP.
  generalize dependent (1 - ed * x1 * x2 * y1 * y2). intros D2 NM. generalize (x1 * y2 + y1 * x2). intros N1. generalize (y1 * y2 - x1 * x2). intros N2.
  pose proof (F_div_mul N1 D1 NP) as M1. pose proof (F_div_mul N2 D2 NM) as M2.
  generalize dependent (N1 / D1). intros q1 M1. generalize dependent (N2 / D2). intros q2 M2. rewrite <- M1, <- M2.
  split; [repeat apply F_mul_nz; try assumption; exact F_two|]. split; [ring|]. split; ring.
Qed.
Lemma pmul_two : forall n P, on P -> pmul (n + n) P = padd (pmul n P) (pmul n P).
Proof. intros n P H. now apply pmul_add. Qed.
Lemma erep_mul_pos : forall k p P, on P -> erep p P -> erep (ext_mul_pos k p) (pmul (Pos.to_nat k) P).
Proof.
  induction k as [k IH|k IH|]; intros p P HO HP; cbn [ext_mul_pos].
  - rewrite Pos2Nat.inj_xI. replace (S (2 * Pos.to_nat k))%nat with (S (Pos.to_nat k + Pos.to_nat k)) by lia. cbn [pmul].
    apply erep_add; [apply on_pmul; exact HO|exact HO| |exact HP]. rewrite pmul_two by exact HO. apply erep_add; auto using on_pmul.
  - rewrite Pos2Nat.inj_xO. replace (2 * Pos.to_nat k)%nat with (Pos.to_nat k + Pos.to_nat k)%nat by lia. rewrite pmul_two by exact HO.
    apply erep_add; auto using on_pmul.
  - replace (Pos.to_nat 1) with 1%nat by reflexivity. cbn [pmul]. rewrite padd_comm, padd_zero_r. exact HP.
Qed.
Lemma erep_mul : forall k p P, on P -> erep p P -> erep (ext_mul k p) (pmul (Z.to_nat k) P).
Proof.
  intros k p P HO HP. destruct k as [|k|k]; cbn [ext_mul].
  - exact erep_zero.
  - rewrite Z2Nat.inj_pos. now apply erep_mul_pos.
  - replace (Z.to_nat (Z.neg k)) with 0%nat by reflexivity. exact erep_zero.
Qed.

(** ** Texts of points *)

Definition point_number (P : point) : Z := (val (snd P) + 2 ^ 255 * (val (im * fst P)%F mod 2))%Z.
Definition point_text (P : point) : string := le_encode 32 (point_number P).

Lemma p_less : (p25519 < 2 ^ 255)%Z.
Proof. reflexivity. Qed.
Lemma inj_range : forall x y, inj x = y -> (0 <= x < p25519)%Z -> x = val y.
Proof. intros x y H HX. rewrite <- H, val_inj. symmetry. now apply Z.mod_small. Qed.
Lemma compress_text : forall p P, erep p P -> ed_compress p = point_text P.
Proof.
  intros p P [HZ [HX [HY HT]]]. unfold ed_compress, point_text, point_number. cbv zeta. apply (f_equal (le_encode 32)).
  assert (E1 : fmul (e_x p) (finv (e_z p)) = val (im * fst P)).
  { apply inj_range; [|apply fmul_range]. rewrite inj_fmul, inj_finv, HX. transitivity (im * fst P * (Finv (inj (e_z p)) * inj (e_z p))); [ring|].
    rewrite Finv_l by exact HZ. ring. }
  assert (E2 : fmul (e_y p) (finv (e_z p)) = val (snd P)).
  { apply inj_range; [|apply fmul_range]. rewrite inj_fmul, inj_finv, HY. transitivity (snd P * (Finv (inj (e_z p)) * inj (e_z p))); [ring|].
    rewrite Finv_l by exact HZ. ring. }
  now rewrite E1, E2.
Qed.
Lemma point_text_length : forall P, String.length (point_text P) = 32%nat.
Proof. intros P. apply le_encode_length. Qed.
Lemma point_number_bits : forall P, (point_number P mod 2 ^ 255)%Z = val (snd P) /\ Z.testbit (point_number P) 255 = Z.odd (val (im * fst P)) /\
  (0 <= point_number P < 256 ^ Z.of_nat 32)%Z.
Proof.
  intros P. unfold point_number. pose proof (val_bound (snd P)) as HB. pose proof p_less as HL. generalize dependent (val (snd P)). intros y HB.
  generalize (val (im * fst P)). intros x. rewrite Zmod_odd. assert (H2 : (0 < 2 ^ 255)%Z) by reflexivity.
  assert (HM : ((y + 2 ^ 255 * (if Z.odd x then 1 else 0)) mod 2 ^ 255 = y)%Z).
  { rewrite Z.mul_comm, Z.mod_add by lia. apply Z.mod_small. lia. }
  split; [exact HM|]. split.
  - rewrite Z.testbit_odd, Z.shiftr_div_pow2 by lia. rewrite Z.mul_comm, Z.div_add by lia. rewrite Z.div_small by lia. now destruct (Z.odd x).
  - replace (256 ^ Z.of_nat 32)%Z with (2 * 2 ^ 255)%Z by reflexivity. destruct (Z.odd x); lia.
Qed.

(** ** Square roots *)

Definition Fpow (x : Fp) (n : Z) : Fp := inj (val x ^ n).
Lemma inj_fpow : forall x e, inj (fpow x e) = Fpow (inj x) (Z.pos e).
Proof.
  intros x e. unfold Fpow. apply inj_eq. eapply cong_trans; [apply fpow_cong|]. apply cong_sym. apply cong_pow; [apply cong_val|lia].
Qed.
Lemma Fpow_add : forall x a b, (0 <= a)%Z -> (0 <= b)%Z -> Fpow x (a + b) = Fpow x a * Fpow x b.
Proof. intros x a b HA HB. unfold Fpow. rewrite Z.pow_add_r by assumption. apply inj_mul. Qed.
Lemma Fpow_one : forall x, Fpow x 1 = x.
Proof. intros x. unfold Fpow. rewrite Z.pow_1_r. apply inj_val. Qed.
Lemma Fpow_mul : forall x y n, (0 <= n)%Z -> Fpow (x * y) n = Fpow x n * Fpow y n.
Proof.
  intros x y n HN. unfold Fpow. rewrite <- inj_mul, <- Z.pow_mul_l. apply inj_eq. apply cong_pow; [|exact HN].
  rewrite <- (inj_val x) at 1. rewrite <- (inj_val y) at 1. rewrite <- inj_mul. apply cong_val.
Qed.
Lemma Fpow_fermat : forall x, x <> 0 -> Fpow x (p25519 - 1) = 1.
Proof.
  intros x HX. unfold Fpow. rewrite F1_def. apply inj_eq. apply fermat; [exact p_prime|]. intros D. apply HX. rewrite <- (inj_val x).
  rewrite F0_def. apply inj_eq. apply cong_divide. now rewrite Z.sub_0_r.
Qed.
Definition e8 : Z := ((p25519 - 5) / 8)%Z.
Lemma e8_eq : (p25519 - 1 = 4 * (2 * e8 + 1))%Z.
Proof. vm_compute. reflexivity. Qed.
Lemma e8_pos : (0 < e8)%Z.
Proof. vm_compute. reflexivity. Qed.

(** The candidate of [sqrt_ratio] before the choice of a sign. *)
Definition root0 (u v : Z) : Z :=
  fmul (fmul u (fmul (fmul v v) v)) (fpow (fmul u (fmul (fmul (fmul (fmul v v) v) (fmul (fmul v v) v)) v)) (Z.to_pos e8)).
Lemma root0_check : forall u v U V, inj u = U -> inj v = V ->
  V * (inj (root0 u v) * inj (root0 u v)) = U * Fpow (U * (V * V * V * (V * V * V) * V)) (2 * e8 + 1).
Proof.
  intros u v U V HU HV. unfold root0. pose proof e8_pos as HE. rewrite !inj_fmul, inj_fpow, !inj_fmul, HU, HV. rewrite Z2Pos.id by exact HE.
  replace (2 * e8 + 1)%Z with (1 + (e8 + e8))%Z by lia. rewrite !Fpow_add, Fpow_one by lia. ring.
Qed.
Lemma sqrt_ratio_unfold : forall u v, sqrt_ratio u v =
  let r := root0 u v in
  let check := fmul v (fmul r r) in
  let correct := (check =? u mod p25519)%Z in
  let flipped := (check =? fsub 0 u)%Z in
  let flipped_i := (check =? fmul (fsub 0 u) sqrt_m1)%Z in
  let r' := if flipped || flipped_i then fmul sqrt_m1 r else r in
  (correct || flipped, if Z.odd r' then fsub 0 r' else r').
Proof. intros u v. reflexivity. Qed.
Lemma eqb_inj : forall x y, (0 <= x < p25519)%Z -> (0 <= y < p25519)%Z -> (x =? y)%Z = true <-> inj x = inj y.
Proof.
  intros x y HX HY. rewrite Z.eqb_eq. split; [now intros ->|]. intros H. apply inj_eq in H. now apply cong_eq in H.
Qed.
Lemma root0_range : forall u v, (0 <= root0 u v < p25519)%Z.
Proof. intros u v. unfold root0. apply fmul_range. Qed.
Lemma odd_negate : forall r, (0 <= r < p25519)%Z -> Z.odd (if Z.odd r then fsub 0 r else r) = false /\
  (0 <= (if Z.odd r then fsub 0 r else r) < p25519)%Z /\
  (inj (if Z.odd r then fsub 0 r else r) = inj r \/ inj (if Z.odd r then fsub 0 r else r) = - inj r).
Proof.
  intros r HR. destruct (Z.odd r) eqn:EO; [|repeat split; try tauto; try lia].
  assert (HN : fsub 0 r = (p25519 - r)%Z).
  { apply fsub_zero. assert (r <> 0)%Z by (intros ->; discriminate EO). lia. }
  split; [|split].
  - rewrite HN, Z.odd_sub, EO. reflexivity.
  - apply fsub_range.
  - right. rewrite inj_fsub, <- F0_def. ring.
Qed.
Lemma mod_range : forall u, (0 <= u mod p25519 < p25519)%Z.
Proof. intros u. apply Z.mod_pos_bound. reflexivity. Qed.
Lemma sqrt_ratio_sound : forall u v r, sqrt_ratio u v = (true, r) ->
  inj v * (inj r * inj r) = inj u /\ Z.odd r = false /\ (0 <= r < p25519)%Z.
Proof.
  intros u v r H. rewrite sqrt_ratio_unfold in H. cbv zeta in H. pose proof (root0_range u v) as HR. generalize dependent (root0 u v). intros r0 H HR.
  apply pair_equal_spec in H. destruct H as [HK HE].
  assert (X1 : (fmul v (fmul r0 r0) =? u mod p25519)%Z = true <-> inj v * (inj r0 * inj r0) = inj u).
  { rewrite eqb_inj by (apply fmul_range || apply mod_range). rewrite inj_mod, !inj_fmul. reflexivity. }
  assert (X2 : (fmul v (fmul r0 r0) =? fsub 0 u)%Z = true <-> inj v * (inj r0 * inj r0) = - inj u).
  { rewrite eqb_inj by (apply fmul_range || apply fsub_range). rewrite inj_fsub, !inj_fmul, <- F0_def.
    split; intros E; rewrite E; ring. }
  assert (X3 : (fmul v (fmul r0 r0) =? fmul (fsub 0 u) sqrt_m1)%Z = true <-> inj v * (inj r0 * inj r0) = - inj u * im).
  { rewrite eqb_inj by apply fmul_range. rewrite !inj_fmul, inj_fsub, <- F0_def, <- im_def.
    split; intros E; rewrite E; ring. }
  set (b1 := (fmul v (fmul r0 r0) =? u mod p25519)%Z) in *. set (b2 := (fmul v (fmul r0 r0) =? fsub 0 u)%Z) in *.
  set (b3 := (fmul v (fmul r0 r0) =? fmul (fsub 0 u) sqrt_m1)%Z) in *. clearbody b1 b2 b3.
  assert (G : forall r', (if b2 || b3 then fmul sqrt_m1 r0 else r0) = r' -> inj v * (inj r' * inj r') = inj u /\ (0 <= r' < p25519)%Z).
  { intros r' E. subst r'. destruct b2 eqn:E2.
    - cbn [orb]. split; [|apply fmul_range]. rewrite !inj_fmul, <- im_def. apply proj1 in X2. specialize (X2 eq_refl).
      transitivity (im * im * (inj v * (inj r0 * inj r0))); [ring|]. rewrite X2, im_sq. ring.
    - rewrite orb_false_r in HK. subst b1. apply proj1 in X1. specialize (X1 eq_refl). cbn [orb]. destruct b3.
      + exfalso. apply proj1 in X3. specialize (X3 eq_refl). rewrite X1 in X3.
        assert (U0 : inj u = 0).
        { assert (M : inj u * (1 + im) = 0) by (transitivity (inj u - - inj u * im); [ring|]; rewrite <- X3; ring).
          apply F_mul_zero in M. destruct M as [M|M]; [exact M|]. now elim im_plus. }
        assert (C : false = true) by (apply X2; rewrite X1, U0; ring). discriminate C.
      + split; [exact X1|exact HR]. }
  destruct (G _ eq_refl) as [G1 G2]. destruct (odd_negate _ G2) as [O1 [O2 O3]]. rewrite HE in O1, O2, O3. split; [|split; assumption].
  destruct O3 as [O3|O3]; rewrite O3; [exact G1|]. rewrite <- G1. ring.
Qed.
Lemma sqrt_ratio_complete : forall u v X, inj v <> 0 -> inj u = X * X * inj v -> fst (sqrt_ratio u v) = true.
Proof.
  intros u v X HV HU. rewrite sqrt_ratio_unfold. cbv zeta. cbn [fst]. apply orb_true_iff.
  rewrite !eqb_inj by (apply fmul_range || apply mod_range || apply fsub_range).
  rewrite inj_mod, inj_fsub, !inj_fmul, <- F0_def. rewrite (root0_check u v _ _ eq_refl eq_refl).
  destruct (F_dec X 0) as [C|C].
  - left. rewrite HU, C. ring.
  - set (W := X * (inj v * inj v * inj v * inj v)). assert (HW : W <> 0) by (unfold W; repeat apply F_mul_nz; assumption).
    replace (inj u * (inj v * inj v * inj v * (inj v * inj v * inj v) * inj v)) with (W * W) by (unfold W; rewrite HU; ring).
    pose proof e8_pos as HE. rewrite Fpow_mul by lia. set (Q := Fpow W (2 * e8 + 1)).
    assert (H4 : Q * Q * (Q * Q) = 1).
    { unfold Q. rewrite <- !Fpow_add by lia. replace (2 * e8 + 1 + (2 * e8 + 1) + (2 * e8 + 1 + (2 * e8 + 1)))%Z with (p25519 - 1)%Z by (rewrite e8_eq; ring).
      apply Fpow_fermat. exact HW. }
    assert (M : (Q * Q - 1) * (Q * Q + 1) = 0) by (transitivity (Q * Q * (Q * Q) - 1); [ring|]; rewrite H4; ring).
    apply F_mul_zero in M. destruct M as [M|M].
    + left. apply F_minus in M. rewrite M. ring.
    + right. replace (Q * Q) with (Q * Q + 1 - 1) by ring. rewrite M. ring.
Qed.
Lemma even_root : forall a b, (0 <= a < p25519)%Z -> (0 <= b < p25519)%Z -> Z.odd a = false -> Z.odd b = false ->
  inj a * inj a = inj b * inj b -> a = b.
Proof.
  intros a b HA HB OA OB H. assert (M : (inj a - inj b) * (inj a + inj b) = 0) by (transitivity (inj a * inj a - inj b * inj b); [ring|]; rewrite H; ring).
  apply F_mul_zero in M. destruct M as [M|M].
  - apply F_minus in M. apply inj_eq in M. now apply cong_eq in M.
  - rewrite <- inj_add, F0_def in M. apply inj_eq in M. destruct M as [k HK].
    assert (OP : Z.odd p25519 = true) by reflexivity.
    assert (O : Z.odd (a + b) = false) by (rewrite Z.odd_add, OA, OB; reflexivity).
    pose proof p_big. assert (HK2 : k = 0%Z \/ k = 1%Z) by nia. destruct HK2 as [-> | ->]; [lia|].
    rewrite HK in O. replace (0 + 1 * p25519)%Z with p25519 in O by ring. rewrite OP in O. discriminate O.
Qed.

(** ** Reading points *)

Lemma decompress_unfold : forall s, ed_decompress s =
  let y := ((le_decode s mod 2 ^ 255) mod p25519)%Z in
  let q := sqrt_ratio (fsub (fmul y y) 1) (fadd (fmul (fmul y y) edwards_d) 1) in
  if fst q then
    let x := if Z.testbit (le_decode s) 255 then fsub 0 (snd q) else snd q in
    Some {| e_x := x; e_y := y; e_z := 1; e_t := fmul x y |}
  else None.
Proof. intros s. unfold ed_decompress. cbv zeta. destruct (sqrt_ratio _ _) as [ok r]. reflexivity. Qed.
Lemma twisted_on : forall X Y, (1 - ed * (Y * Y)) * (X * X) = Y * Y - 1 -> on (- im * X, Y).
Proof.
  intros X Y H. unfold on, on_curve. cbn [fst snd]. apply F_minus.
  transitivity (im * im * (X * X) * (1 - ed * (Y * Y)) + Y * Y - 1); [ring|]. rewrite im_sq.
  transitivity (Y * Y - 1 - (1 - ed * (Y * Y)) * (X * X)); [ring|]. rewrite H. ring.
Qed.
Lemma on_twisted : forall P, on P -> (1 - ed * (snd P * snd P)) * (im * fst P * (im * fst P)) = snd P * snd P - 1.
Proof.
  intros [x y] H. unfold on, on_curve in H. cbn [fst snd] in *.
  transitivity (im * im * (x * x) * (1 - ed * (y * y))); [ring|]. rewrite im_sq.
  apply F_minus. transitivity (1 + ed * x * x * y * y - (x * x + y * y)); [ring|]. rewrite H. ring.
Qed.
Lemma erep_one : forall x y, erep {| e_x := x; e_y := y; e_z := 1; e_t := fmul x y |} (- im * inj x, inj y).
Proof.
  intros x y. unfold erep. cbn [e_x e_y e_z e_t fst snd]. rewrite inj_fmul, <- F1_def. split; [exact F_one_zero|].
  assert (E : im * (- im * inj x) = inj x) by (transitivity (- (im * im) * inj x); [ring|]; rewrite im_sq; ring).
  rewrite E. split; [ring|]. split; ring.
Qed.
(** Whatever is read is a point of the curve. *)
Lemma decompress_sound : forall s a, ed_decompress s = Some a -> exists P, on P /\ erep a P /\ snd P = inj (le_decode s mod 2 ^ 255).
Proof.
  intros s a H. rewrite decompress_unfold in H. cbv zeta in H. pose proof (inj_mod (le_decode s mod 2 ^ 255)) as HY.
  remember ((le_decode s mod 2 ^ 255) mod p25519)%Z as y eqn:EY. clear EY.
  destruct (sqrt_ratio (fsub (fmul y y) 1) (fadd (fmul (fmul y y) edwards_d) 1)) as [ok r] eqn:ES. cbn [fst snd] in H.
  destruct ok; [|discriminate]. apply sqrt_ratio_sound in ES. destruct ES as [ES _]. apply some_same in H. subst a.
  set (x := if Z.testbit (le_decode s) 255 then fsub 0 r else r). exists (- im * inj x, inj y). split; [|split].
  - apply twisted_on. rewrite inj_fsub, inj_fadd, !inj_fmul, d_eq, <- F1_def in ES. rewrite <- ES.
    assert (EX : inj x * inj x = inj r * inj r) by (unfold x; destruct (Z.testbit _ _); [rewrite inj_fsub, <- F0_def; ring|reflexivity]).
    rewrite EX. ring.
  - apply erep_one.
  - exact HY.
Qed.
Lemma im_nz : im <> 0.
Proof. intros C. apply F_one_zero. apply opp_zero. rewrite <- im_sq, C. ring. Qed.
(** The sign of a text: the parity of the first coordinate, unless that is 0. *)
Definition sign_fits (s : string) (P : point) : Prop := fst P = 0 \/ Z.odd (val (im * fst P)) = Z.testbit (le_decode s) 255.
Lemma decompress_sign : forall s a P, ed_decompress s = Some a -> erep a P -> sign_fits s P.
Proof.
  intros s a P H HE. rewrite decompress_unfold in H. cbv zeta in H. remember ((le_decode s mod 2 ^ 255) mod p25519)%Z as y eqn:EY. clear EY.
  destruct (sqrt_ratio (fsub (fmul y y) 1) (fadd (fmul (fmul y y) edwards_d) 1)) as [ok r] eqn:ES. cbn [fst snd] in H.
  destruct ok; [|discriminate]. apply sqrt_ratio_sound in ES. destruct ES as [_ [OR HR]]. apply some_same in H. subst a.
  destruct HE as [_ [HX _]]. cbn [e_x e_z] in HX. rewrite <- F1_def in HX.
  set (x := if Z.testbit (le_decode s) 255 then fsub 0 r else r) in *.
  assert (HV : x = val (im * fst P)).
  { apply inj_range; [rewrite HX; ring|]. unfold x. destruct (Z.testbit _ _); [apply fsub_range|exact HR]. }
  unfold sign_fits. rewrite <- HV. unfold x. destruct (Z.testbit (le_decode s) 255) eqn:EB; [|right; exact OR].
  destruct (Z.eq_dec r 0) as [C|C].
  - left. apply (F_cancel im); [exact im_nz|]. transitivity (inj x); [rewrite HX; ring|]. unfold x. rewrite inj_fsub, C, <- F0_def. ring.
  - right. rewrite fsub_zero by lia. rewrite Z.odd_sub, OR. reflexivity.
Qed.
Lemma decompress_reads : forall s P, on P -> snd P = inj (le_decode s mod 2 ^ 255) -> sign_fits s P ->
  exists a, ed_decompress s = Some a /\ erep a P.
Proof.
  intros s P HO HY HB. pose proof (on_twisted P HO) as HT.
  assert (EY : ((le_decode s mod 2 ^ 255) mod p25519 = val (snd P))%Z) by (rewrite HY; symmetry; apply val_inj).
  rewrite decompress_unfold, EY. cbv zeta. clear EY HY. unfold sign_fits in HB. generalize dependent (Z.testbit (le_decode s) 255). intros b HB.
  set (u := fsub (fmul (val (snd P)) (val (snd P))) 1). set (v := fadd (fmul (fmul (val (snd P)) (val (snd P))) edwards_d) 1).
  assert (HU : inj u = snd P * snd P - 1) by (unfold u; rewrite inj_fsub, inj_fmul, inj_val, <- F1_def; reflexivity).
  assert (HV : inj v = 1 - ed * (snd P * snd P)) by (unfold v; rewrite inj_fadd, !inj_fmul, inj_val, d_eq, <- F1_def; ring).
  assert (NV : inj v <> 0) by (rewrite HV; apply one_minus_dsq).
  assert (HC : fst (sqrt_ratio u v) = true).
  { apply (sqrt_ratio_complete u v (im * fst P) NV). rewrite HU, HV, <- HT. ring. }
  destruct (sqrt_ratio u v) as [ok r] eqn:ES. cbn [fst] in HC. subst ok. apply sqrt_ratio_sound in ES. destruct ES as [E1 [E2 E3]].
  clearbody u v. cbn [fst snd]. set (t := val (im * fst P)) in *. assert (HBT : (0 <= t < p25519)%Z) by apply val_bound.
  assert (IT : inj t = im * fst P) by apply inj_val. clearbody t.
  assert (SQ : inj r * inj r = inj t * inj t).
  { apply (F_cancel (inj v)); [exact NV|]. rewrite E1, HU, HV, IT. symmetry. exact HT. }
  destruct (odd_negate t HBT) as [O1 [O2 O3]].
  assert (ER : r = if Z.odd t then fsub 0 t else t).
  { apply even_root; try assumption. rewrite SQ. destruct O3 as [O3|O3]; rewrite O3; ring. }
  assert (EX : (if b then fsub 0 r else r) = t).
  { assert (IE : inj (if b then fsub 0 r else r) = inj t).
    { destruct HB as [HB|HB].
      - assert (I0 : inj t = 0) by (rewrite IT, HB; ring). assert (R0 : inj r = 0).
        { assert (M : inj r * inj r = 0) by (rewrite SQ, I0; ring). apply F_mul_zero in M. tauto. }
        destruct b; [rewrite inj_fsub, R0, I0, <- F0_def; ring|now rewrite R0, I0].
      - rewrite <- HB. destruct (Z.odd t); [rewrite ER, !inj_fsub, <- F0_def; ring|now rewrite ER]. }
    apply inj_eq in IE. apply cong_eq in IE; [exact IE| |exact HBT]. destruct b; [apply fsub_range|exact E3]. }
  rewrite EX. eexists. split; [reflexivity|]. pose proof (erep_one t (val (snd P))) as HE. rewrite inj_val, IT in HE.
  replace (- im * (im * fst P)) with (fst P) in HE by (transitivity (- (im * im) * fst P); [rewrite im_sq; ring|ring]).
  destruct P as [x y]. exact HE.
Qed.
(** The text of a point is read as that point. *)
Lemma decompress_text : forall P, on P -> exists a, ed_decompress (point_text P) = Some a /\ erep a P.
Proof.
  intros P HO. destruct (point_number_bits P) as [HM [HB HR]]. apply decompress_reads; [exact HO| |].
  - unfold point_text. rewrite (le_decode_encode 32 (point_number P) HR), HM. symmetry. apply inj_val.
  - right. unfold point_text. now rewrite (le_decode_encode 32 (point_number P) HR), HB.
Qed.
Lemma erep_unique : forall p P Q, erep p P -> erep p Q -> P = Q.
Proof.
  intros p [x1 y1] [x2 y2] [HZ [HX1 [HY1 _]]] [_ [HX2 [HY2 _]]]. cbn [fst snd] in *. f_equal.
  - apply (F_cancel (im * inj (e_z p))).
    + apply F_mul_nz; [exact im_nz|exact HZ].
    + transitivity (inj (e_x p)); [rewrite HX1; ring|rewrite HX2; ring].
  - apply (F_cancel (inj (e_z p))); [exact HZ|]. transitivity (inj (e_y p)); [rewrite HY1; ring|rewrite HY2; ring].
Qed.
Lemma point_text_inj : forall P Q, on P -> on Q -> point_text P = point_text Q -> P = Q.
Proof.
  intros P Q HP HQ H. destruct (decompress_text P HP) as [a [A1 A2]]. destruct (decompress_text Q HQ) as [b [B1 B2]]. rewrite H, B1 in A1.
  injection A1 as A1. subst b. eapply erep_unique; eassumption.
Qed.
