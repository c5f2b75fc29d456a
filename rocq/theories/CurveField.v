(** The integers modulo 2^255 - 19 as a field. *)

From Coq Require Import ZArith Znumtheory List Bool Lia Eqdep_dec Ring Field.
From Verif Require Import Bytes PrimeFacts PrimeCert Curve.
Local Open Scope Z_scope.

Lemma p_prime : prime p25519.
Proof. exact (proj1 p25519_cert). Qed.
Lemma p_big : 1000000 < p25519.
Proof. reflexivity. Qed.
Lemma p_euler : cong p25519 ((121665 * 121666) ^ ((p25519 - 1) / 2)) (-1).
Proof. exact (proj2 p25519_cert). Qed.
Lemma p_odd : (p25519 - 1) mod 2 = 0.
Proof. reflexivity. Qed.

Definition Fp : Set := {x : Z | (x mod p25519 =? x) = true}.
Definition val (x : Fp) : Z := proj1_sig x.
Lemma mod_canonical : forall x, ((x mod p25519) mod p25519 =? x mod p25519) = true.
Proof. intros x. apply Z.eqb_eq. apply Z.mod_mod. pose proof p_big. lia. Qed.
Definition inj (x : Z) : Fp := exist _ (x mod p25519) (mod_canonical x).
(** Behind opaque proofs, so that no tactic tries to compute with elements of the field. *)
Lemma Fadd_ex : {f : Fp -> Fp -> Fp | forall x y, f x y = inj (val x + val y)}.
Proof. exists (fun x y => inj (val x + val y)). reflexivity. Qed.
Definition Fadd : Fp -> Fp -> Fp := proj1_sig Fadd_ex.
Lemma Fadd_def : forall x y, Fadd x y = inj (val x + val y).
Proof. exact (proj2_sig Fadd_ex). Qed.
Lemma Fsub_ex : {f : Fp -> Fp -> Fp | forall x y, f x y = inj (val x - val y)}.
Proof. exists (fun x y => inj (val x - val y)). reflexivity. Qed.
Definition Fsub : Fp -> Fp -> Fp := proj1_sig Fsub_ex.
Lemma Fsub_def : forall x y, Fsub x y = inj (val x - val y).
Proof. exact (proj2_sig Fsub_ex). Qed.
Lemma Fmul_ex : {f : Fp -> Fp -> Fp | forall x y, f x y = inj (val x * val y)}.
Proof. exists (fun x y => inj (val x * val y)). reflexivity. Qed.
Definition Fmul : Fp -> Fp -> Fp := proj1_sig Fmul_ex.
Lemma Fmul_def : forall x y, Fmul x y = inj (val x * val y).
Proof. exact (proj2_sig Fmul_ex). Qed.
Lemma Fopp_ex : {f : Fp -> Fp | forall x, f x = inj (- val x)}.
Proof. exists (fun x => inj (- val x)). reflexivity. Qed.
Definition Fopp : Fp -> Fp := proj1_sig Fopp_ex.
Lemma Fopp_def : forall x, Fopp x = inj (- val x).
Proof. exact (proj2_sig Fopp_ex). Qed.
Lemma Finv_ex : {f : Fp -> Fp | forall x, f x = inj (val x ^ (p25519 - 2))}.
Proof. exists (fun x => inj (val x ^ (p25519 - 2))). reflexivity. Qed.
Definition Finv : Fp -> Fp := proj1_sig Finv_ex.
Lemma Finv_def : forall x, Finv x = inj (val x ^ (p25519 - 2)).
Proof. exact (proj2_sig Finv_ex). Qed.
Definition Fdiv (x y : Fp) : Fp := Fmul x (Finv y).
Lemma F0_ex : {z : Fp | z = inj 0}.
Proof. exists (inj 0). reflexivity. Qed.
Definition F0 : Fp := proj1_sig F0_ex.
Lemma F0_def : F0 = inj 0.
Proof. exact (proj2_sig F0_ex). Qed.
Lemma F1_ex : {z : Fp | z = inj 1}.
Proof. exists (inj 1). reflexivity. Qed.
Definition F1 : Fp := proj1_sig F1_ex.
Lemma F1_def : F1 = inj 1.
Proof. exact (proj2_sig F1_ex). Qed.

Lemma val_eq : forall x y : Fp, val x = val y -> x = y.
Proof.
  intros [x HX] [y HY] H. cbn [val proj1_sig] in H. subst y. f_equal. apply UIP_dec. apply Bool.bool_dec.
Qed.
Lemma val_inj : forall x, val (inj x) = x mod p25519.
Proof. reflexivity. Qed.
Lemma val_bound : forall x, 0 <= val x < p25519.
Proof.
  intros [x H]. cbn [val proj1_sig]. apply Z.eqb_eq in H. rewrite <- H. apply Z.mod_pos_bound. pose proof p_big. lia.
Qed.
Lemma inj_val : forall x, inj (val x) = x.
Proof. intros x. apply val_eq. rewrite val_inj. apply Z.mod_small. apply val_bound. Qed.
Lemma inj_eq : forall x y, inj x = inj y <-> cong p25519 x y.
Proof.
  intros x y. pose proof p_big as HB. split; intros H.
  - assert (K : val (inj x) = val (inj y)) by now rewrite H. rewrite !val_inj in K.
    eapply cong_trans; [apply cong_sym; apply (cong_mod p25519); lia|]. rewrite K. apply cong_mod. lia.
  - apply val_eq. rewrite !val_inj. apply cong_mod_eq; [lia|exact H].
Qed.
Lemma cong_val : forall x, cong p25519 (val (inj x)) x.
Proof. intros x. rewrite val_inj. apply cong_mod. pose proof p_big. lia. Qed.

Lemma inj_add : forall x y, inj (x + y) = Fadd (inj x) (inj y).
Proof. intros x y. rewrite Fadd_def. apply inj_eq. apply cong_sym. apply cong_add; apply cong_val. Qed.
Lemma inj_sub : forall x y, inj (x - y) = Fsub (inj x) (inj y).
Proof. intros x y. rewrite Fsub_def. apply inj_eq. apply cong_sym. apply cong_sub; apply cong_val. Qed.
Lemma inj_mul : forall x y, inj (x * y) = Fmul (inj x) (inj y).
Proof. intros x y. rewrite Fmul_def. apply inj_eq. apply cong_sym. apply cong_mul; apply cong_val. Qed.
Lemma inj_opp : forall x, inj (- x) = Fopp (inj x).
Proof. intros x. rewrite Fopp_def. apply inj_eq. apply cong_sym. replace (- x) with (0 - x) by ring. replace (- val (inj x)) with (0 - val (inj x)) by ring. apply cong_sub; [apply cong_refl|apply cong_val]. Qed.
Lemma inj_mod : forall x, inj (x mod p25519) = inj x.
Proof. intros x. apply inj_eq. apply cong_mod. pose proof p_big. lia. Qed.

Lemma F_ring : ring_theory F0 F1 Fadd Fmul Fsub Fopp eq.
Proof.
  constructor; intros; repeat match goal with x : Fp |- _ => rewrite <- (inj_val x); generalize (val x); clear x; intros end; rewrite ?F0_def, ?F1_def;
    rewrite <- ?inj_opp, <- ?inj_add, <- ?inj_mul, <- ?inj_sub, <- ?inj_opp, <- ?inj_add, <- ?inj_mul; apply inj_eq; exists 0; ring.
Qed.
Lemma F_one_zero : F1 <> F0.
Proof. rewrite F0_def, F1_def. intros H. apply inj_eq in H. pose proof p_big. apply cong_eq in H; lia. Qed.
Lemma Finv_l : forall x, x <> F0 -> Fmul (Finv x) x = F1.
Proof.
  intros x HX. rewrite <- (inj_val x) at 2. rewrite Finv_def. rewrite <- inj_mul. rewrite F1_def. apply inj_eq.
  replace (val x ^ (p25519 - 2) * val x) with (val x ^ (p25519 - 1)).
  - apply fermat; [exact p_prime|]. intros D. apply HX. rewrite <- (inj_val x). rewrite F0_def. apply inj_eq. apply cong_divide. now rewrite Z.sub_0_r.
  - pose proof p_big. replace (p25519 - 1) with (Z.succ (p25519 - 2)) by lia. rewrite Z.pow_succ_r by lia. ring.
Qed.
Lemma F_field : field_theory F0 F1 Fadd Fmul Fsub Fopp Fdiv Finv eq.
Proof. constructor; [exact F_ring|exact F_one_zero|reflexivity|exact Finv_l]. Qed.

Declare Scope fp_scope.
Delimit Scope fp_scope with F.
Infix "+" := Fadd : fp_scope.
Infix "-" := Fsub : fp_scope.
Infix "*" := Fmul : fp_scope.
Infix "/" := Fdiv : fp_scope.
Notation "- x" := (Fopp x) : fp_scope.
Notation "0" := F0 : fp_scope.
Notation "1" := F1 : fp_scope.
Global Opaque Fadd Fmul Fsub Fopp Fdiv Finv F0 F1.
Add Field Fp_field : F_field.
Local Open Scope fp_scope.

Lemma F_mul_zero : forall x y, x * y = 0 -> x = 0 \/ y = 0.
Proof.
  intros x y H. assert (D : forall z : Fp, z = 0 \/ z <> 0).
  { intros z. destruct (Z.eq_dec (val z) (val 0)) as [C|C]; [left; now apply val_eq|right; congruence]. }
  destruct (D x) as [C|C]; [now left|]. right. replace y with (Finv x * x * y) by (rewrite Finv_l by exact C; ring).
  replace (Finv x * x * y) with (Finv x * (x * y)) by ring. rewrite H. ring.
Qed.
Lemma F_dec : forall x y : Fp, {x = y} + {x <> y}.
Proof.
  intros x y. destruct (Z.eq_dec (val x) (val y)) as [C|C]; [left; now apply val_eq|right; congruence].
Qed.
Lemma F_cancel : forall c x y, c <> 0 -> c * x = c * y -> x = y.
Proof.
  intros c x y HC H. assert (K : c * (x - y) = 0) by (replace (c * (x - y)) with (c * x - c * y) by ring; rewrite H; ring).
  apply F_mul_zero in K. destruct K as [K|K]; [contradiction|]. replace x with (x - y + y) by ring. rewrite K. ring.
Qed.
Lemma F_mul_nz : forall x y, x <> 0 -> y <> 0 -> x * y <> 0.
Proof. intros x y HX HY H. apply F_mul_zero in H. tauto. Qed.
Lemma F_two : 1 + 1 <> 0.
Proof.
  rewrite F0_def, F1_def. rewrite <- inj_add. intros H. apply inj_eq in H. pose proof p_big. apply cong_eq in H; lia.
Qed.
Lemma fpow_cong : forall x e, cong p25519 (fpow x e) (x ^ Z.pos e).
Proof.
  intros x. pose proof p_big as HB. assert (M : forall a b, cong p25519 (fmul a b) (a * b)%Z) by (intros; apply cong_mod; lia).
  induction e as [e IH|e IH|]; cbn [fpow].
  - replace (Z.pos e~1) with (1 + Z.pos e + Z.pos e)%Z by lia. rewrite !Z.pow_add_r, Z.pow_1_r by lia.
    eapply cong_trans; [apply M|]. replace (x * x ^ Z.pos e * x ^ Z.pos e)%Z with (x * (x ^ Z.pos e * x ^ Z.pos e))%Z by ring.
    apply cong_mul; [apply cong_refl|]. eapply cong_trans; [apply M|]. now apply cong_mul.
  - replace (Z.pos e~0) with (Z.pos e + Z.pos e)%Z by lia. rewrite Z.pow_add_r by lia. eapply cong_trans; [apply M|]. now apply cong_mul.
  - rewrite Z.pow_1_r. apply cong_mod. lia.
Qed.
Lemma inj_finv : forall x, inj (finv x) = Finv (inj x).
Proof.
  intros x. rewrite Finv_def. apply inj_eq. unfold finv. pose proof p_big as HB.
  eapply cong_trans; [apply fpow_cong|]. rewrite Z2Pos.id by lia. apply cong_sym. apply cong_pow; [apply cong_val|lia].
Qed.
Lemma inj_fadd : forall x y, inj (fadd x y) = inj x + inj y.
Proof. intros x y. unfold fadd. now rewrite inj_mod, inj_add. Qed.
Lemma inj_fsub : forall x y, inj (fsub x y) = inj x - inj y.
Proof. intros x y. unfold fsub. now rewrite inj_mod, inj_sub. Qed.
Lemma inj_fmul : forall x y, inj (fmul x y) = inj x * inj y.
Proof. intros x y. unfold fmul. now rewrite inj_mod, inj_mul. Qed.
