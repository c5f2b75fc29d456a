(** Facts about the f64 arithmetic of Float.v. *)

From Coq Require Import Ascii String ZArith List Bool Lia.
From Verif Require Import Bytes Float.
Local Open Scope Z_scope.

(** ** Rounding to an integer *)

Lemma div_even_spec : forall a b, 0 < b ->
  - b <= 2 * (a - div_even a b * b) <= b /\ (2 * (a - div_even a b * b) = b \/ 2 * (a - div_even a b * b) = - b -> Z.even (div_even a b) = true).
Proof.
  intros a b Hb. pose proof (Z.div_mod a b ltac:(lia)) as D. pose proof (Z.mod_pos_bound a b Hb) as M. unfold div_even. cbv zeta.
  set (d := a / b) in *. set (r := a mod b) in *.
  destruct (Z.ltb_spec (2 * r) b) as [C|C]; [split; [nia|intros [E|E]; exfalso; nia]|].
  destruct (Z.ltb_spec b (2 * r)) as [C2|C2]; [split; [nia|intros [E|E]; exfalso; nia]|].
  destruct (Z.even d) eqn:V; [split; [nia|auto]|]. split; [nia|]. intros _.
  rewrite Z.even_add, V. reflexivity.
Qed.
Lemma div_even_unique : forall a b d, 0 < b ->
  (- b < 2 * (a - d * b) < b \/ (- b <= 2 * (a - d * b) <= b /\ Z.even d = true)) -> div_even a b = d.
Proof.
  intros a b d Hb H. destruct (div_even_spec a b Hb) as [[L U] T]. set (g := div_even a b) in *.
  assert (Z.abs (g - d) <= 1) by (destruct H as [H|[H _]]; nia).
  destruct (Z.eq_dec g d) as [|N]; [assumption|]. exfalso.
  assert (C : g = d + 1 \/ g = d - 1) by lia.
  destruct H as [H|[H V]]; [destruct C; subst; nia|].
  assert (TG : Z.even g = true) by (apply T; destruct C as [C|C]; rewrite C in *; nia).
  destruct C as [C|C]; rewrite C in TG; [rewrite Z.even_add in TG|rewrite Z.even_sub in TG]; rewrite V in TG; discriminate.
Qed.
Lemma div_even_mul : forall a b c, 0 < b -> 0 < c -> div_even (a * c) (b * c) = div_even a b.
Proof.
  intros a b c Hb Hc. destruct (div_even_spec a b Hb) as [[L U] T]. set (g := div_even a b) in *. apply div_even_unique; [nia|].
  destruct (Z.eq_dec (2 * (a - g * b)) b) as [E|E]; [right; split; [nia|apply T; auto]|].
  destruct (Z.eq_dec (2 * (a - g * b)) (- b)) as [E'|E']; [right; split; [nia|apply T; auto]|]. left. nia.
Qed.

(** ** Exponents *)

Lemma exp64_spec : forall x, 0 <= x -> 0 <= exp64 x /\ x < 2 ^ (53 + exp64 x) /\ (0 < exp64 x -> 2 ^ (52 + exp64 x) <= x).
Proof.
  intros x Hx. unfold exp64. split; [lia|].
  destruct (Z.eq_dec x 0) as [->|N]; [cbn [Z.log2]; split; [reflexivity|intros H; exfalso; lia]|].
  destruct (Z.log2_spec x ltac:(lia)) as [L U].
  destruct (Z.le_gt_cases (Z.log2 x) 52) as [C|C].
  - rewrite Z.max_l by lia. split; [|lia]. eapply Z.lt_le_trans; [exact U|]. apply Z.pow_le_mono_r; lia.
  - rewrite Z.max_r by lia. replace (53 + (Z.log2 x - 52)) with (Z.succ (Z.log2 x)) by lia.
    replace (52 + (Z.log2 x - 52)) with (Z.log2 x) by lia. auto.
Qed.
Lemma exp64_unique : forall x e, 0 <= x -> 0 <= e -> x < 2 ^ (53 + e) -> e = 0 \/ 2 ^ (52 + e) <= x -> exp64 x = e.
Proof.
  intros x e Hx He HU HL. destruct (exp64_spec x Hx) as [E0 [EU EL]].
  destruct (Z.lt_trichotomy (exp64 x) e) as [C|[C|C]]; [|assumption|]; exfalso.
  - destruct HL as [HL|HL]; [lia|]. assert (2 ^ (53 + exp64 x) <= 2 ^ (52 + e)) by (apply Z.pow_le_mono_r; lia). lia.
  - specialize (EL ltac:(lia)). assert (2 ^ (53 + e) <= 2 ^ (52 + exp64 x)) by (apply Z.pow_le_mono_r; lia). lia.
Qed.

(** ** The numbers an f64 can hold *)

Definition is64 (x : Z) : Prop := exists m e, 0 <= m < 2 ^ 53 /\ 0 <= e /\ x = m * 2 ^ e.

Lemma is64_nonneg : forall x, is64 x -> 0 <= x.
Proof. intros x [m [e [M [E ->]]]]. apply Z.mul_nonneg_nonneg; [lia|]. apply Z.pow_nonneg. lia. Qed.
Lemma is64_exp_le : forall m e, 0 <= m < 2 ^ 53 -> 0 <= e -> exp64 (m * 2 ^ e) <= e.
Proof.
  intros m e M E. assert (P : 0 < 2 ^ e) by (apply Z.pow_pos_nonneg; lia). assert (H0 : 0 <= m * 2 ^ e) by nia.
  destruct (exp64_spec _ H0) as [E0 [EU EL]]. destruct (Z.le_gt_cases (exp64 (m * 2 ^ e)) e) as [|C]; [assumption|]. exfalso.
  specialize (EL ltac:(lia)). assert (2 ^ (53 + e) <= 2 ^ (52 + exp64 (m * 2 ^ e))) by (apply Z.pow_le_mono_r; lia).
  rewrite Z.pow_add_r in H by lia. nia.
Qed.
(** The unique form with the smallest exponent. *)
Lemma is64_form : forall x, is64 x -> exists m, 0 <= m < 2 ^ 53 /\ x = m * 2 ^ exp64 x /\ (0 < exp64 x -> 2 ^ 52 <= m) /\ x / 2 ^ exp64 x = m.
Proof.
  intros x [m [e [M [E ->]]]]. set (x := m * 2 ^ e). pose proof (is64_exp_le m e M E) as L. fold x in L.
  assert (P : 0 < 2 ^ e) by (apply Z.pow_pos_nonneg; lia). assert (H0 : 0 <= x) by (unfold x; nia).
  destruct (exp64_spec x H0) as [E0 [EU EL]]. set (f := exp64 x) in *. assert (PF : 0 < 2 ^ f) by (apply Z.pow_pos_nonneg; lia).
  assert (Hx : x = m * 2 ^ (e - f) * 2 ^ f). { unfold x. rewrite <- Z.mul_assoc, <- Z.pow_add_r by lia. do 2 f_equal. lia. }
  set (m' := m * 2 ^ (e - f)) in *. assert (PE : 0 < 2 ^ (e - f)) by (apply Z.pow_pos_nonneg; lia).
  exists m'. rewrite Z.pow_add_r in EU by lia. split; [split; [unfold m'; nia|nia]|]. split; [exact Hx|]. split.
  - intros Pf. specialize (EL Pf). rewrite Z.pow_add_r in EL by lia. nia.
  - rewrite Hx at 1. apply Z.div_mul. lia.
Qed.

(** ** Rounding to an f64 *)

(** The numbers [p / q] that round to [x]: half a gap around it, the ends included when its last bit is 0. *)
Definition rounds_to (p q x : Z) : Prop :=
  lower4 x * q <= 4 * p <= upper4 x * q /\ (closed x = true \/ lower4 x * q < 4 * p < upper4 x * q).

Lemma floor_lt : forall p q n, 0 < q -> p < n * q -> p / q < n.
Proof. intros p q n Hq H. apply Z.div_lt_upper_bound; lia. Qed.
Lemma floor_ge : forall p q n, 0 < q -> n * q <= p -> n <= p / q.
Proof. intros p q n Hq H. apply Z.div_le_lower_bound; lia. Qed.

Lemma round_in : forall x p q, is64 x -> 0 < x -> 0 < q -> rounds_to p q x -> round64 p q = x.
Proof.
  intros x p q HX Hx Hq [[L U] T]. destruct (is64_form x HX) as [m [M [EX [ML EM]]]]. destruct (exp64_spec x ltac:(lia)) as [E0 [EU EL]].
  unfold lower4, upper4, closed in *. rewrite EM in T. set (e := exp64 x) in *. assert (P : 0 < 2 ^ e) by (apply Z.pow_pos_nonneg; lia).
  assert (M1 : 1 <= m) by nia. cbv zeta in L, T.
  set (u := 2 ^ e) in *. assert (E52 : 2 ^ (52 + e) = 2 ^ 52 * u) by (apply Z.pow_add_r; lia). rewrite E52 in *.
  assert (E53 : 2 ^ (53 + e) = 2 ^ 53 * u) by (apply Z.pow_add_r; lia). rewrite E53 in *.
  change (2 ^ 53) with 9007199254740992 in *. change (2 ^ 52) with 4503599627370496 in *.
  destruct (Z.le_gt_cases (x * q) p) as [C|C].
  - (* not below x *)
    assert (HE : exp64 (p / q) = e).
    { apply exp64_unique; [apply Z.div_pos; nia|lia| |].
      - rewrite E53. apply floor_lt; [assumption|]. destruct (Z.eq_dec m 9007199254740991) as [->|N].
        + destruct T as [T|[_ T]]; [discriminate T|]. nia.
        + assert (m <= 9007199254740990) by lia. nia.
      - destruct (Z.eq_dec e 0) as [Z0|N0]; [now left|right]. rewrite E52. apply floor_ge; [assumption|]. specialize (ML ltac:(lia)). nia. }
    unfold round64. cbv zeta. rewrite HE. fold u. rewrite EX. f_equal. apply div_even_unique; [nia|].
    destruct T as [T|T]; [right|left].
    + split; [|exact T]. rewrite EX in U, C. split; nia.
    + rewrite EX in T, C. split; nia.
  - destruct ((x =? 4503599627370496 * u) && (0 <? e))%bool eqn:B.
    + (* below a power of two *)
      apply andb_true_iff in B. destruct B as [B1 B2]. apply Z.eqb_eq in B1. apply Z.ltb_lt in B2.
      assert (Hm : m = 4503599627370496) by nia.
      assert (Hu : u = 2 * 2 ^ (e - 1)). { unfold u. replace e with (1 + (e - 1)) at 1 by lia. rewrite Z.pow_add_r by lia. reflexivity. }
      assert (P' : 0 < 2 ^ (e - 1)) by (apply Z.pow_pos_nonneg; lia). set (v := 2 ^ (e - 1)) in *.
      assert (HE : exp64 (p / q) = e - 1).
      { apply exp64_unique; [apply Z.div_pos; nia|lia| |].
        - replace (53 + (e - 1)) with (52 + e) by lia. rewrite E52. apply floor_lt; [assumption|]. nia.
        - right. replace (52 + (e - 1)) with (52 + (e - 1)) by lia. rewrite Z.pow_add_r by lia. fold v. change (2 ^ 52) with 4503599627370496. apply floor_ge; [assumption|]. nia. }
      unfold round64. cbv zeta. rewrite HE. fold v. replace x with (9007199254740992 * v) by nia. f_equal. apply div_even_unique; [nia|].
      right. split; [|reflexivity]. split; nia.
    + apply andb_false_iff in B.
      assert (HE : exp64 (p / q) = e).
      { apply exp64_unique; [apply Z.div_pos; nia|lia| |].
        - rewrite E53. apply floor_lt; [assumption|]. nia.
        - destruct (Z.eq_dec e 0) as [Z0|N0]; [now left|right]. rewrite E52. apply floor_ge; [assumption|]. specialize (ML ltac:(lia)).
          destruct B as [B|B]; [apply Z.eqb_neq in B|apply Z.ltb_ge in B; lia]. assert (4503599627370497 <= m) by nia. nia. }
      unfold round64. cbv zeta. rewrite HE. fold u. rewrite EX. f_equal. apply div_even_unique; [nia|].
      destruct T as [T|T]; [right|left].
      * split; [|exact T]. rewrite EX in L, C. split; nia.
      * rewrite EX in T, C. split; nia.
Qed.

Lemma round_cases : forall p q, 0 <= p -> 0 < q -> let e := exp64 (p / q) in let m := div_even p (q * 2 ^ e) in
  0 <= m <= 2 ^ 53 /\ (0 < e -> 2 ^ 52 <= m) /\ round64 p q = m * 2 ^ e /\ p < 2 ^ (53 + e) * q /\ (0 < e -> 2 ^ (52 + e) * q <= p).
Proof.
  intros p q Hp Hq e m. assert (H0 : 0 <= p / q) by (apply Z.div_pos; lia). destruct (exp64_spec _ H0) as [E0 [EU EL]]. fold e in E0, EU, EL.
  assert (P : 0 < 2 ^ e) by (apply Z.pow_pos_nonneg; lia). pose proof (Z.div_mod p q ltac:(lia)) as D. pose proof (Z.mod_pos_bound p q Hq) as R.
  assert (HP : p < 2 ^ (53 + e) * q) by nia. assert (HL : 0 < e -> 2 ^ (52 + e) * q <= p) by (intros G; specialize (EL G); nia).
  destruct (div_even_spec p (q * 2 ^ e) ltac:(nia)) as [[L U] T]. fold m in L, U, T.
  assert (E52 : 2 ^ (52 + e) = 2 ^ 52 * 2 ^ e) by (apply Z.pow_add_r; lia). assert (E53 : 2 ^ (53 + e) = 2 ^ 53 * 2 ^ e) by (apply Z.pow_add_r; lia).
  rewrite E52, E53 in *. set (u := 2 ^ e) in *. change (2 ^ 53) with 9007199254740992 in *. change (2 ^ 52) with 4503599627370496 in *.
  split; [split; nia|]. split; [intros G; specialize (HL G); nia|]. split; [reflexivity|]. auto.
Qed.
Lemma round_is64 : forall p q, 0 <= p -> 0 < q -> is64 (round64 p q).
Proof.
  intros p q Hp Hq. destruct (round_cases p q Hp Hq) as [M [_ [-> _]]]. set (e := exp64 (p / q)) in *. assert (0 <= e) by (unfold e, exp64; lia).
  set (m := div_even p (q * 2 ^ e)) in *. destruct (Z.eq_dec m (2 ^ 53)) as [->|N].
  - exists (2 ^ 52), (e + 1). split; [split; [lia|reflexivity]|]. split; [lia|]. rewrite Z.pow_add_r by lia. change (2 ^ 53) with (2 ^ 52 * 2 ^ 1). lia.
  - exists m, e. repeat split; lia.
Qed.
Lemma round_out : forall p q x, 0 <= p -> 0 < q -> round64 p q = x -> 0 < x -> rounds_to p q x.
Proof.
  intros p q x Hp Hq HR Hx. destruct (round_cases p q Hp Hq) as [M [ML [EX [HP HL]]]]. rewrite HR in EX.
  set (e := exp64 (p / q)) in *. assert (E0 : 0 <= e) by (unfold e, exp64; lia). assert (P : 0 < 2 ^ e) by (apply Z.pow_pos_nonneg; lia).
  destruct (div_even_spec p (q * 2 ^ e) ltac:(nia)) as [[L U] T]. set (m := div_even p (q * 2 ^ e)) in *.
  assert (E52 : 2 ^ (52 + e) = 2 ^ 52 * 2 ^ e) by (apply Z.pow_add_r; lia). assert (E53 : 2 ^ (53 + e) = 2 ^ 53 * 2 ^ e) by (apply Z.pow_add_r; lia).
  rewrite E52, E53 in *. set (u := 2 ^ e) in *. change (2 ^ 53) with 9007199254740992 in *. change (2 ^ 52) with 4503599627370496 in *.
  destruct (Z.eq_dec m 9007199254740992) as [N|N].
  - (* rounded up to a power of two *)
    assert (Eu : 2 ^ (e + 1) = 2 * u) by (rewrite Z.pow_add_r by lia; change (2 ^ 1) with 2; fold u; lia).
    assert (HE : exp64 x = e + 1).
    { apply exp64_unique; [lia|lia| |right].
      - replace (53 + (e + 1)) with (54 + e) by lia. rewrite Z.pow_add_r by lia. fold u. change (2 ^ 54) with 18014398509481984. nia.
      - replace (52 + (e + 1)) with (53 + e) by lia. rewrite E53. nia. }
    unfold rounds_to, lower4, upper4, closed. rewrite HE. replace (52 + (e + 1)) with (53 + e) by lia. rewrite E53, Eu.
    replace (x =? 9007199254740992 * u) with true by (symmetry; apply Z.eqb_eq; nia). replace (0 <? e + 1) with true by (symmetry; apply Z.ltb_lt; lia). cbn [andb].
    replace x with (4503599627370496 * (2 * u)) by nia. rewrite Z.div_mul by lia. split; [|now left]. split; nia.
  - assert (HE : exp64 x = e).
    { apply exp64_unique; [lia|lia| |].
      - rewrite E53. nia.
      - destruct (Z.eq_dec e 0) as [Z0|N0]; [now left|right]. rewrite E52. specialize (ML ltac:(lia)). nia. }
    unfold rounds_to, lower4, upper4, closed. rewrite HE, E52. fold u. replace (x / u) with m by (rewrite EX; symmetry; apply Z.div_mul; lia).
    destruct ((x =? 4503599627370496 * u) && (0 <? e))%bool eqn:B.
    + apply andb_true_iff in B. destruct B as [B1 B2]. apply Z.eqb_eq in B1. apply Z.ltb_lt in B2. specialize (HL B2).
      assert (Hm : m = 4503599627370496) by nia. rewrite Hm. split; [|now left]. split; nia.
    + split; [split; nia|]. destruct (Z.even m) eqn:V; [now left|right].
      destruct (Z.eq_dec (2 * (p - m * (q * u))) (q * u)) as [G|G]; [discriminate (T (or_introl G))|].
      destruct (Z.eq_dec (2 * (p - m * (q * u))) (- (q * u))) as [G'|G']; [discriminate (T (or_intror G'))|]. split; nia.
Qed.
Lemma round_scale : forall p q c, 0 < q -> 0 < c -> round64 (p * c) (q * c) = round64 p q.
Proof.
  intros p q c Hq Hc. unfold round64. cbv zeta. rewrite Z.div_mul_cancel_r by lia. set (e := exp64 (p / q)).
  assert (P : 0 < 2 ^ e) by (apply Z.pow_pos_nonneg; [lia|unfold e, exp64; lia]).
  replace (q * c * 2 ^ e) with (q * 2 ^ e * c) by ring. rewrite div_even_mul; [reflexivity|nia|assumption].
Qed.
Lemma self_rounds : forall x q, is64 x -> 0 < x -> 0 < q -> rounds_to (x * q) q x.
Proof.
  intros x q HX Hx Hq. unfold rounds_to, lower4, upper4. cbv zeta. assert (P : 0 < 2 ^ exp64 x) by (apply Z.pow_pos_nonneg; [lia|unfold exp64; lia]).
  destruct ((x =? 2 ^ (52 + exp64 x)) && (0 <? exp64 x))%bool; (split; [nia|right; nia]).
Qed.
Lemma round_zero : forall q, 0 < q -> round64 0 q = 0.
Proof.
  intros q Hq. unfold round64. cbv zeta. rewrite Z.div_0_l by lia. change (exp64 0) with 0. change (2 ^ 0) with 1. rewrite !Z.mul_1_r.
  apply div_even_unique; [assumption|left; lia].
Qed.
Lemma round_exact : forall x q, is64 x -> 0 < q -> round64 (x * q) q = x.
Proof.
  intros x q HX Hq. pose proof (is64_nonneg x HX). destruct (Z.eq_dec x 0) as [->|N]; [now apply round_zero|].
  apply round_in; [assumption|lia|assumption|]. apply self_rounds; [assumption|lia|assumption].
Qed.

(** The result is a nearest f64. *)
Lemma round_nearest : forall p q y, 0 <= p -> 0 < q -> is64 y -> Z.abs (round64 p q * q - p) <= Z.abs (y * q - p).
Proof.
  intros p q y Hp Hq HY. destruct (round_cases p q Hp Hq) as [M [ML [EX [HP HL]]]]. rewrite EX.
  set (e := exp64 (p / q)) in *. assert (E0 : 0 <= e) by (unfold e, exp64; lia). assert (P : 0 < 2 ^ e) by (apply Z.pow_pos_nonneg; lia).
  destruct (div_even_spec p (q * 2 ^ e) ltac:(nia)) as [[L U] _]. set (m := div_even p (q * 2 ^ e)) in *.
  assert (MUL : forall n, Z.abs (m * 2 ^ e * q - p) <= Z.abs (n * 2 ^ e * q - p)).
  { intros n. set (u := 2 ^ e) in *. assert (Z.abs (2 * (m * u * q - p)) <= q * u) by (apply Z.abs_le; split; nia).
    destruct (Z.eq_dec n m) as [->|N]; [lia|]. assert (q * u <= Z.abs (2 * (n * u * q - p))); [|lia].
    assert (C : n < m \/ m < n) by lia. destruct C; [rewrite Z.abs_neq by nia|rewrite Z.abs_eq by nia]; nia. }
  destruct (is64_form y HY) as [n [N [EY [NL _]]]]. pose proof (is64_nonneg y HY).
  destruct (Z.le_gt_cases e (exp64 y)) as [C|C].
  - specialize (MUL (n * 2 ^ (exp64 y - e))). replace (n * 2 ^ (exp64 y - e) * 2 ^ e) with y in MUL; [exact MUL|].
    rewrite EY at 1. rewrite <- Z.mul_assoc, <- Z.pow_add_r by lia. do 2 f_equal. lia.
  - assert (YE : 0 <= exp64 y) by (unfold exp64; lia). specialize (HL ltac:(lia)). specialize (MUL (2 ^ 52)). rewrite <- Z.pow_add_r in MUL by lia.
    destruct (exp64_spec y ltac:(lia)) as [_ [YU _]]. assert (2 ^ (53 + exp64 y) <= 2 ^ (52 + e)) by (apply Z.pow_le_mono_r; lia).
    rewrite (Z.abs_neq (2 ^ (52 + e) * q - p)) in MUL by nia. rewrite (Z.abs_neq (y * q - p)) by nia. nia.
Qed.
Lemma round_upper : forall p q b, 0 <= p -> 0 < q -> is64 b -> p <= b * q -> round64 p q <= b.
Proof.
  intros p q b Hp Hq HB H. pose proof (round_nearest p q b Hp Hq HB) as N. pose proof (is64_nonneg b HB).
  destruct (Z.le_gt_cases (round64 p q) b) as [|C]; [assumption|]. exfalso.
  rewrite (Z.abs_eq (round64 p q * q - p)) in N by nia. rewrite (Z.abs_eq (b * q - p)) in N by nia. nia.
Qed.

(** ** Conversions that are exact *)

Lemma unit_pos : 0 < unit64.
Proof. unfold unit64. apply Z.pow_pos_nonneg; lia. Qed.
Lemma int_is64 : forall m j, 0 <= m < 2 ^ 53 -> 0 <= j -> is64 (m * 2 ^ j * unit64).
Proof. intros m j M J. exists m, (j + 1074). split; [exact M|]. split; [lia|]. rewrite Z.pow_add_r by lia. unfold unit64. ring. Qed.
Lemma small_is64 : forall n, 0 <= n < 2 ^ 53 -> is64 (n * unit64).
Proof. intros n H. pose proof (int_is64 n 0 H ltac:(lia)) as I. now rewrite Z.pow_0_r, Z.mul_1_r in I. Qed.
Lemma of_int_exact : forall n, is64 (n * unit64) -> of_int n = n * unit64.
Proof.
  intros n H. unfold of_int. pose proof (round_exact (n * unit64) 1) as G. rewrite Z.mul_1_r in G. apply G; [exact H|lia].
Qed.
Lemma pow10_exact : forall j, 0 <= j <= 22 -> pow10 j = 10 ^ j * unit64.
Proof.
  intros j H. unfold pow10, of_int. pose proof (round_exact (10 ^ j * unit64) 1) as G. rewrite Z.mul_1_r in G. apply G; [|lia].
  change 10 with (5 * 2). rewrite Z.pow_mul_l. apply int_is64; [|lia]. split; [apply Z.pow_nonneg; lia|].
  apply Z.le_lt_trans with (5 ^ 22); [apply Z.pow_le_mono_r; lia|reflexivity].
Qed.

Lemma round_unit : forall p, round64 (p * unit64) unit64 = round64 p 1.
Proof. intros p. pose proof unit_pos. rewrite <- (round_scale p 1 unit64) by lia. now rewrite Z.mul_1_l. Qed.

(** [s * 10^x] units as a fraction. *)
Definition dec_num (s x : Z) : Z := if 0 <=? x then s * 10 ^ x * unit64 else s * unit64.
Definition dec_den (x : Z) : Z := if 0 <=? x then 1 else 10 ^ (- x).
Lemma dec_den_pos : forall x, 0 < dec_den x.
Proof. intros x. unfold dec_den. destruct (Z.leb_spec 0 x); [lia|]. apply Z.pow_pos_nonneg; lia. Qed.
Lemma dec_num_pos : forall s x, 0 <= s -> 0 <= dec_num s x.
Proof.
  intros s x H. pose proof unit_pos. unfold dec_num. destruct (Z.leb_spec 0 x); [|nia].
  assert (0 < 10 ^ x) by (apply Z.pow_pos_nonneg; lia). nia.
Qed.
(** Few digits and a small exponent: correctly rounded. *)
Lemma from_parts_exact : forall s x, 0 <= s <= max_u64 -> is64 (s * unit64) -> -22 <= x <= 22 -> from_parts s x = Some (round64 (dec_num s x) (dec_den x)).
Proof.
  intros s x HS H64 HX. pose proof unit_pos as HU. unfold from_parts. rewrite of_int_exact by assumption. unfold scale.
  replace (Z.abs x <=? 308) with true by (symmetry; apply Z.leb_le; lia).
  unfold dec_num, dec_den. destruct (Z.leb_spec 0 x) as [C|C]; cbv zeta.
  - rewrite pow10_exact by lia. unfold mul64. set (t := 10 ^ x). assert (T : 0 < t) by (apply Z.pow_pos_nonneg; lia).
    replace (s * unit64 * (t * unit64)) with (s * t * unit64 * unit64) by ring. rewrite (round_unit (s * t * unit64)).
    replace (finite64 (round64 (s * t * unit64) 1)) with true; [reflexivity|]. symmetry. unfold finite64. apply Z.ltb_lt.
    apply Z.le_lt_trans with (1 * 2 ^ 200 * unit64).
    + apply round_upper; [nia|lia|apply int_is64; lia|]. assert (t <= 10 ^ 22) by (apply Z.pow_le_mono_r; lia).
      assert (s * t <= 2 ^ 200); [|nia]. apply Z.le_trans with (max_u64 * 10 ^ 22); [nia|]. vm_compute. discriminate.
    + apply Z.mul_lt_mono_pos_r; [assumption|]. rewrite Z.mul_1_l. apply Z.pow_lt_mono_r; lia.
  - rewrite pow10_exact by lia. unfold div64. set (t := 10 ^ (- x)). assert (T : 0 < t) by (apply Z.pow_pos_nonneg; lia).
    now rewrite round_scale by lia.
Qed.

(** ** Shortest decimals *)

Lemma ten4_eq : forall k, fst (ten4 k) = 4 * dec_num 1 k /\ snd (ten4 k) = dec_den k.
Proof. intros k. unfold ten4, dec_num, dec_den. destruct (0 <=? k); cbn [fst snd]; split; ring. Qed.
Lemma dec_num_mul : forall n k, dec_num n k = n * dec_num 1 k.
Proof. intros n k. unfold dec_num. destruct (0 <=? k); ring. Qed.
Lemma dec_num_one : forall k, 0 < dec_num 1 k.
Proof. intros k. pose proof unit_pos. unfold dec_num. destruct (Z.leb_spec 0 k); [|lia]. assert (0 < 10 ^ k) by (apply Z.pow_pos_nonneg; lia). nia. Qed.
Lemma ceil_le : forall a p n, 0 < p -> - (- a / p) <= n <-> a <= n * p.
Proof.
  intros a p n Hp. pose proof (Z.div_mod (- a) p ltac:(lia)) as D. pose proof (Z.mod_pos_bound (- a) p Hp). split; intros H0; nia.
Qed.
Lemma floor_le : forall a p n, 0 < p -> n <= a / p <-> n * p <= a.
Proof. intros a p n Hp. pose proof (Z.div_mod a p ltac:(lia)) as D. pose proof (Z.mod_pos_bound a p Hp). split; intros H0; nia. Qed.
Lemma least_iff : forall x k n, least x k <= n <-> lower4 x * dec_den k <= 4 * dec_num n k /\ (closed x = true \/ lower4 x * dec_den k < 4 * dec_num n k).
Proof.
  intros x k n. unfold least. destruct (ten4_eq k) as [E1 E2]. destruct (ten4 k) as [p q]. cbn [fst snd] in E1, E2. subst p q.
  pose proof (dec_num_one k). rewrite (dec_num_mul n). set (p := dec_num 1 k) in *. set (a := lower4 x * dec_den k). cbv zeta. destruct (closed x).
  - rewrite ceil_le by lia. split; [intros G; split; [nia|now left]|intros [G _]; nia].
  - pose proof (floor_le a (4 * p) n ltac:(lia)) as F. split.
    + intros G. assert (~ n <= a / (4 * p)) by lia. rewrite F in H0. split; [nia|right; nia].
    + intros [_ [G|G]]; [discriminate|]. assert (~ n <= a / (4 * p)); [|lia]. rewrite F. nia.
Qed.
Lemma greatest_iff : forall x k n, n <= greatest x k <-> 4 * dec_num n k <= upper4 x * dec_den k /\ (closed x = true \/ 4 * dec_num n k < upper4 x * dec_den k).
Proof.
  intros x k n. unfold greatest. destruct (ten4_eq k) as [E1 E2]. destruct (ten4 k) as [p q]. cbn [fst snd] in E1, E2. subst p q.
  pose proof (dec_num_one k). rewrite (dec_num_mul n). set (p := dec_num 1 k) in *. set (a := upper4 x * dec_den k). cbv zeta. destruct (closed x).
  - rewrite floor_le by lia. split; [intros G; split; [nia|now left]|intros [G _]; nia].
  - pose proof (ceil_le a (4 * p) n ltac:(lia)) as F. split.
    + intros G. assert (~ - (- a / (4 * p)) <= n) by lia. rewrite F in H0. split; [nia|right; nia].
    + intros [_ [G|G]]; [discriminate|]. assert (~ - (- a / (4 * p)) <= n); [|lia]. rewrite F. nia.
Qed.
Lemma decimal_rounds : forall x k n, least x k <= n <= greatest x k <-> rounds_to (dec_num n k) (dec_den k) x.
Proof.
  intros x k n. rewrite least_iff, greatest_iff. unfold rounds_to. split.
  - intros [[A B] [C D]]. split; [lia|]. destruct B as [B|B]; [now left|]. destruct D as [D|D]; [now left|]. right. lia.
  - intros [[A C] [B|[B D]]]; (split; split; [assumption|auto|assumption|auto]).
Qed.
Lemma search_spec : forall n x k, let r := search n x k in
  r <= k /\ (forall j, r < j <= k -> greatest x j < least x j) /\
  ((exists j, k - Z.of_nat n < j <= k /\ least x j <= greatest x j) -> least x r <= greatest x r).
Proof.
  induction n as [|n IH]; intros x k r.
  - unfold r. cbn [search]. split; [lia|]. split; [lia|]. intros [j [J _]]. lia.
  - unfold r. cbn [search]. destruct (Z.leb_spec (least x k) (greatest x k)) as [C|C]; [split; [lia|]; split; [lia|]; auto|].
    specialize (IH x (k - 1)). cbv zeta in IH. destruct IH as [A [B D]]. split; [lia|]. split.
    + intros j J. destruct (Z.eq_dec j k) as [->|N]; [assumption|]. apply B. lia.
    + intros [j [J G]]. apply D. exists j. split; [|assumption]. destruct (Z.eq_dec j k) as [->|N]; lia.
Qed.

Lemma upper4_log : forall x, is64 x -> 0 < x -> upper4 x < 4 * 2 ^ (Z.log2 x + 1).
Proof.
  intros x HX Hx. destruct (is64_form x HX) as [m [M [EX [ML _]]]]. destruct (Z.log2_spec x Hx) as [L U]. unfold upper4.
  destruct (exp64_spec x ltac:(lia)) as [E0 [EU EL]]. set (e := exp64 x) in *. assert (P : 0 < 2 ^ e) by (apply Z.pow_pos_nonneg; lia).
  change (Z.succ (Z.log2 x)) with (Z.log2 x + 1) in U.
  assert (LE : e <= Z.log2 x + 1).
  { destruct (Z.eq_dec e 0); [pose proof (Z.log2_nonneg x); lia|]. specialize (EL ltac:(lia)). assert (2 ^ (52 + e) < 2 ^ (Z.log2 x + 1)) by lia.
    apply Z.pow_lt_mono_r_iff in H; [lia|lia|]. pose proof (Z.log2_nonneg x). lia. }
  assert (Q : 2 ^ (Z.log2 x + 1) = 2 ^ (Z.log2 x + 1 - e) * 2 ^ e) by (rewrite <- Z.pow_add_r by lia; f_equal; lia).
  rewrite Q in *. set (T := 2 ^ (Z.log2 x + 1 - e)) in *. set (u := 2 ^ e) in *.
  assert (m < T) by (apply (Z.mul_lt_mono_pos_r u); [assumption|]; rewrite <- EX; exact U). clear Q. rewrite EX at 1. nia.
Qed.
Lemma lower4_pos : forall x, is64 x -> 0 < x -> 0 < lower4 x.
Proof.
  intros x HX Hx. destruct (is64_form x HX) as [m [M [EX [ML _]]]]. unfold lower4. cbv zeta. assert (P : 0 < 2 ^ exp64 x) by (apply Z.pow_pos_nonneg; [lia|unfold exp64; lia]).
  assert (1 <= m) by nia. destruct ((x =? 2 ^ (52 + exp64 x)) && (0 <? exp64 x))%bool; nia.
Qed.
Lemma none_above : forall x k, is64 x -> 0 < x -> first_power x < k -> greatest x k < least x k.
Proof.
  intros x k HX Hx HK. destruct (Z.le_gt_cases (least x k) (greatest x k)) as [C|C]; [|assumption]. exfalso.
  set (n := greatest x k) in *. assert (H : least x k <= n <= greatest x k) by (unfold n; lia).
  apply decimal_rounds in H. destruct H as [[L U] _]. pose proof (lower4_pos x HX Hx) as LP. pose proof (dec_den_pos k) as DP.
  rewrite dec_num_mul in L, U. pose proof (dec_num_one k) as NP. assert (N1 : 1 <= n) by nia.
  pose proof (upper4_log x HX Hx) as UL. assert (B : dec_num 1 k < 2 ^ (Z.log2 x + 1) * dec_den k) by nia. clear L U C LP.
  unfold first_power in HK. cbv zeta in HK. unfold dec_num, dec_den in B. pose proof unit_pos as UP. pose proof (Z.log2_nonneg x).
  set (l := Z.log2 x - 1074) in *. replace (Z.log2 x + 1) with (l + 1 + 1074) in B by lia.
  destruct (Z.leb_spec 0 l) as [CL|CL].
  - rewrite Z.pow_add_r in B by lia. fold unit64 in B. pose proof (Z.div_mod l 3 ltac:(lia)). pose proof (Z.mod_pos_bound l 3 ltac:(lia)).
    replace (0 <=? k) with true in B by (symmetry; apply Z.leb_le; lia).
    assert (2 ^ (l + 1) <= 10 ^ k); [|nia]. apply Z.le_trans with (2 ^ (3 * k)); [apply Z.pow_le_mono_r; lia|].
    rewrite Z.pow_mul_r by lia. apply Z.pow_le_mono_l. lia.
  - destruct (Z.leb_spec 0 k) as [CK|CK].
    + assert (2 ^ (l + 1 + 1074) <= unit64) by (apply Z.pow_le_mono_r; lia). assert (0 < 10 ^ k) by (apply Z.pow_pos_nonneg; lia). nia.
    + pose proof (Z.div_mod (- l) 4 ltac:(lia)). pose proof (Z.mod_pos_bound (- l) 4 ltac:(lia)).
      assert (Q : 2 ^ (l + 1 + 1074) * 2 ^ (- l - 1) = unit64) by (rewrite <- Z.pow_add_r by lia; unfold unit64; f_equal; lia).
      assert (10 ^ (- k) <= 2 ^ (- l - 1)).
      { apply Z.le_trans with (2 ^ (4 * - k)); [|apply Z.pow_le_mono_r; lia]. rewrite Z.pow_mul_r by lia. apply Z.pow_le_mono_l. lia. }
      assert (0 < 2 ^ (l + 1 + 1074)) by (apply Z.pow_pos_nonneg; lia). nia.
Qed.
Lemma some_below : forall x, is64 x -> 0 < x -> least x (-324) <= greatest x (-324).
Proof.
  intros x HX Hx. set (a := lower4 x * dec_den (-324)). set (p := 4 * dec_num 1 (-324)).
  pose proof (dec_num_one (-324)) as NP. pose proof (dec_den_pos (-324)) as DP.
  assert (P : 0 < 2 ^ exp64 x) by (apply Z.pow_pos_nonneg; [lia|unfold exp64; lia]).
  assert (W : p < (upper4 x - lower4 x) * dec_den (-324)).
  { unfold p. assert (4 * dec_num 1 (-324) < 3 * dec_den (-324)) by (vm_compute; reflexivity). assert (3 <= upper4 x - lower4 x); [|nia].
    unfold upper4, lower4. cbv zeta. destruct ((x =? 2 ^ (52 + exp64 x)) && (0 <? exp64 x))%bool; lia. }
  set (n := a / p + 1). pose proof (Z.div_mod a p ltac:(unfold p; lia)) as D. pose proof (Z.mod_pos_bound a p ltac:(unfold p; lia)) as R.
  assert (H : least x (-324) <= n <= greatest x (-324)); [|lia]. apply decimal_rounds. rewrite dec_num_mul.
  assert (A1 : lower4 x * dec_den (-324) < 4 * (n * dec_num 1 (-324))) by (change (a < 4 * (n * dec_num 1 (-324))); unfold n; replace (4 * ((a / p + 1) * dec_num 1 (-324))) with ((a / p + 1) * p) by (unfold p; ring); nia).
  assert (A2 : 4 * (n * dec_num 1 (-324)) < upper4 x * dec_den (-324)).
  { replace (4 * (n * dec_num 1 (-324))) with ((a / p + 1) * p) by (unfold n, p; ring). assert (upper4 x * dec_den (-324) = a + (upper4 x - lower4 x) * dec_den (-324)) by (unfold a; ring). nia. }
  split; [lia|right; lia].
Qed.
Lemma first_power_low : forall x, 0 < x -> -268 <= first_power x.
Proof.
  intros x Hx. unfold first_power. cbv zeta. pose proof (Z.log2_nonneg x). destruct (Z.leb_spec 0 (Z.log2 x - 1074)) as [C|C].
  - pose proof (Z.div_pos (Z.log2 x - 1074) 3). lia.
  - pose proof (Z.div_mod (- (Z.log2 x - 1074)) 4 ltac:(lia)). pose proof (Z.mod_pos_bound (- (Z.log2 x - 1074)) 4 ltac:(lia)). lia.
Qed.
Lemma shortest_spec : forall x n k, is64 x -> 0 < x -> shortest x = (n, k) ->
  1 <= n /\ rounds_to (dec_num n k) (dec_den k) x /\
  (forall n' k', rounds_to (dec_num n' k') (dec_den k') x -> k' <= k) /\
  (forall n', rounds_to (dec_num n' k) (dec_den k) x -> Z.abs (dec_num n k - x * dec_den k) <= Z.abs (dec_num n' k - x * dec_den k)).
Proof.
  intros x n k HX Hx HS. unfold shortest in HS. cbv zeta in HS. pose proof (first_power_low x Hx) as FL.
  destruct (search_spec (Z.to_nat (first_power x + 330)) x (first_power x)) as [S1 [S2 S3]].
  set (k0 := search (Z.to_nat (first_power x + 330)) x (first_power x)) in *.
  assert (S4 : least x k0 <= greatest x k0). { apply S3. exists (-324). split; [lia|now apply some_below]. } clear S3.
  destruct (ten4_eq k0) as [E1 E2]. destruct (ten4 k0) as [p q]. cbn [fst snd] in E1, E2.
  apply pair_equal_spec in HS. destruct HS as [HN HK]. subst k0. rewrite HK in *. clear HK. subst p q.
  set (g := div_even (4 * x * dec_den k) (4 * dec_num 1 k)) in *.
  assert (HI : least x k <= n <= greatest x k) by lia.
  pose proof HI as HR. apply decimal_rounds in HR. pose proof (dec_num_one k) as NP. pose proof (dec_den_pos k) as DP. split.
  { destruct HR as [[L _] _]. pose proof (lower4_pos x HX Hx). rewrite dec_num_mul in L. nia. }
  split; [exact HR|]. split.
  - intros n' k' H'. apply decimal_rounds in H'. destruct (Z.le_gt_cases k' k) as [|C]; [assumption|]. exfalso.
    destruct (Z.le_gt_cases k' (first_power x)) as [C2|C2].
    + specialize (S2 k' ltac:(lia)). lia.
    + pose proof (none_above x k' HX Hx C2). lia.
  - intros n' H'. apply decimal_rounds in H'. destruct (div_even_spec (4 * x * dec_den k) (4 * dec_num 1 k) ltac:(lia)) as [[L U] _]. fold g in L, U.
    rewrite (dec_num_mul n), (dec_num_mul n'). set (d := dec_num 1 k) in *. set (A := x * dec_den k) in *.
    replace (4 * x * dec_den k) with (4 * A) in L, U by (unfold A; ring).
    destruct (Z.lt_trichotomy n g) as [C|[C|C]].
    + assert (n' <= n) by lia. assert (n * d <= A) by nia. rewrite !Z.abs_neq by nia. nia.
    + subst n. rewrite C in *. assert (Z.abs (2 * (g * d - A)) <= d) by (apply Z.abs_le; split; nia).
      destruct (Z.eq_dec n' g) as [->|N]; [lia|]. assert (d <= Z.abs (2 * (n' * d - A))); [|lia].
      assert (D : n' < g \/ g < n') by lia. destruct D; [rewrite Z.abs_neq by nia|rewrite Z.abs_eq by nia]; nia.
    + assert (n <= n') by lia. assert (A <= n * d) by nia. rewrite !Z.abs_eq by nia. nia.
Qed.
