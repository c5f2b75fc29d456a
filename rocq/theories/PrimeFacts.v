(** Primes: Fermat's little theorem, Pocklington's criterion and a checker for powers, used by the curve of x25519. *)

From Coq Require Import ZArith Znumtheory List Permutation Bool Lia.
Import ListNotations.
Local Open Scope Z_scope.

(** ** Congruence *)

Definition cong (n x y : Z) : Prop := exists k, x = y + k * n.

Lemma cong_refl : forall n x, cong n x x.
Proof. intros n x. exists 0. ring. Qed.
Lemma cong_sym : forall n x y, cong n x y -> cong n y x.
Proof. intros n x y [k H]. exists (- k). subst x. ring. Qed.
Lemma cong_trans : forall n x y z, cong n x y -> cong n y z -> cong n x z.
Proof. intros n x y z [k H] [l K]. exists (k + l). subst x y. ring. Qed.
Lemma cong_add : forall n x y x' y', cong n x y -> cong n x' y' -> cong n (x + x') (y + y').
Proof. intros n x y x' y' [k H] [l K]. exists (k + l). subst x x'. ring. Qed.
Lemma cong_mul : forall n x y x' y', cong n x y -> cong n x' y' -> cong n (x * x') (y * y').
Proof. intros n x y x' y' [k H] [l K]. exists (k * y' + y * l + k * l * n). subst x x'. ring. Qed.
Lemma cong_sub : forall n x y x' y', cong n x y -> cong n x' y' -> cong n (x - x') (y - y').
Proof. intros n x y x' y' [k H] [l K]. exists (k - l). subst x x'. ring. Qed.
Lemma cong_pow : forall n x y e, cong n x y -> 0 <= e -> cong n (x ^ e) (y ^ e).
Proof.
  intros n x y e H HE. pattern e. apply natlike_ind; [apply cong_refl| |exact HE].
  intros z HZ IH. rewrite !Z.pow_succ_r by exact HZ. now apply cong_mul.
Qed.
Lemma cong_mod : forall n x, n <> 0 -> cong n (x mod n) x.
Proof. intros n x H. exists (- (x / n)). pose proof (Z.div_mod x n H). lia. Qed.
Lemma cong_divide : forall n x y, cong n x y <-> (n | x - y).
Proof. intros n x y. split; intros [k H]; exists k; lia. Qed.
Lemma cong_weaken : forall n r x y, (r | n) -> cong n x y -> cong r x y.
Proof. intros n r x y [l H] [k K]. exists (k * l). subst. ring. Qed.
Lemma cong_eq : forall n x y, 0 <= x < n -> 0 <= y < n -> cong n x y -> x = y.
Proof. intros n x y HX HY [k H]. assert (k = 0) by nia. subst k. lia. Qed.
Lemma cong_mod_eq : forall n x y, 0 < n -> cong n x y -> x mod n = y mod n.
Proof. intros n x y HN [k H]. subst x. now rewrite Z.mod_add by lia. Qed.

(** ** Fermat *)

Lemma cong_cancel : forall r a x y, prime r -> ~ (r | a) -> cong r (a * x) (a * y) -> cong r x y.
Proof.
  intros r a x y HR HA H. apply cong_divide in H. apply cong_divide.
  replace (a * x - a * y) with (a * (x - y)) in H by ring. destruct (prime_mult r HR _ _ H) as [C|C]; [contradiction|exact C].
Qed.

Definition units (r : Z) : list Z := map Z.of_nat (seq 1 (Z.to_nat (r - 1))).
Definition product (l : list Z) : Z := fold_right Z.mul 1 l.

Lemma units_in : forall r x, In x (units r) <-> 1 <= x < r.
Proof.
  intros r x. unfold units. rewrite in_map_iff. split.
  - intros [n [H1 H2]]. apply in_seq in H2. lia.
  - intros H. exists (Z.to_nat x). split; [lia|]. apply in_seq. lia.
Qed.
Lemma units_nodup : forall r, NoDup (units r).
Proof. intros r. unfold units. apply FinFun.Injective_map_NoDup; [intros a b H; lia|apply seq_NoDup]. Qed.
Lemma product_perm : forall l l', Permutation l l' -> product l = product l'.
Proof. unfold product. intros l l' H. induction H; cbn [fold_right]; lia. Qed.
Lemma product_cong : forall r a l, 0 < r -> cong r (product (map (fun x => a * x mod r) l)) (a ^ Z.of_nat (List.length l) * product l).
Proof.
  intros r a l HR. induction l as [|x l IH]; [cbn; exists 0; ring|].
  change (product (map (fun x => a * x mod r) (x :: l))) with ((a * x mod r) * product (map (fun x => a * x mod r) l)).
  change (product (x :: l)) with (x * product l).
  eapply cong_trans; [apply cong_mul; [apply cong_mod; lia|exact IH]|].
  replace (Z.of_nat (List.length (x :: l))) with (Z.succ (Z.of_nat (List.length l))) by (cbn [List.length]; lia).
  rewrite Z.pow_succ_r by lia. exists 0. ring.
Qed.
Lemma product_prime : forall r l, prime r -> (forall x, In x l -> ~ (r | x)) -> ~ (r | product l).
Proof.
  intros r l HR. induction l as [|x l IH]; intros H.
  - change (product []) with 1. intros D. apply Z.divide_1_r in D. pose proof (prime_ge_2 r HR). lia.
  - change (product (x :: l)) with (x * product l). intros D. destruct (prime_mult r HR _ _ D) as [C|C].
    + exact (H x (or_introl eq_refl) C).
    + exact (IH (fun y HY => H y (or_intror HY)) C).
Qed.
Lemma not_divide_small : forall r x, 0 < x < r -> ~ (r | x).
Proof. intros r x H D. apply Z.divide_pos_le in D; lia. Qed.

Lemma fermat : forall r a, prime r -> ~ (r | a) -> cong r (a ^ (r - 1)) 1.
Proof.
  intros r a HR HA. pose proof (prime_ge_2 r HR) as H2.
  assert (HP : Permutation (map (fun x => a * x mod r) (units r)) (units r)).
  { apply NoDup_Permutation_bis.
    - apply NoDup_map_inv with (f := fun x => x). rewrite map_id.
      assert (G : forall l, NoDup l -> (forall x, In x l -> 1 <= x < r) -> NoDup (map (fun x => a * x mod r) l)).
      { induction l as [|x l IH]; intros N B; [constructor|]. cbn [map]. inversion N as [|y k N1 N2]; subst. constructor.
        - intros C. apply in_map_iff in C. destruct C as [z [C1 C2]].
          assert (K : cong r x z).
          { apply (cong_cancel r a); [exact HR|exact HA|]. eapply cong_trans; [apply cong_sym; apply cong_mod; lia|].
            rewrite <- C1. apply cong_mod. lia. }
          apply cong_eq in K; [subst z; contradiction| |].
          + specialize (B x (or_introl eq_refl)). lia.
          + specialize (B z (or_intror C2)). lia.
        - apply IH; [exact N2|]. intros z HZ. apply B. now right. }
      apply G; [apply units_nodup|]. intros x. apply units_in.
    - rewrite map_length. reflexivity.
    - intros y HY. apply in_map_iff in HY. destruct HY as [x [H3 H4]]. apply units_in in H4. apply units_in.
      pose proof (Z.mod_pos_bound (a * x) r). assert (y <> 0); [|lia]. intros ->.
      apply Z.mod_divide in H3; [|lia]. destruct (prime_mult r HR _ _ H3) as [C|C]; [contradiction|]. revert C. apply not_divide_small. lia. }
  apply (cong_cancel r (product (units r))).
  - exact HR.
  - apply product_prime; [exact HR|]. intros x HX. apply units_in in HX. apply not_divide_small. lia.
  - rewrite Z.mul_1_r. pose proof (product_cong r a (units r) ltac:(lia)) as HC. rewrite (product_perm _ _ HP) in HC.
    assert (HL : Z.of_nat (List.length (units r)) = r - 1) by (unfold units; rewrite map_length, seq_length; lia). rewrite HL in HC.
    apply cong_sym. rewrite Z.mul_comm. exact HC.
Qed.

(** ** Pocklington *)

Lemma pow_gcd_one : forall r b q m, 0 < q -> 0 < m -> rel_prime q m -> cong r (b ^ q) 1 -> cong r (b ^ m) 1 -> cong r b 1.
Proof.
  intros r b q m HQ HM HG H1 H2. destruct (rel_prime_bezout q m HG) as [u v H].
  set (u' := u mod m + m). pose proof (Z.mod_pos_bound u m HM) as HB.
  assert (E : exists k, 0 <= k /\ u' * q = 1 + k * m).
  { exists (q - v - (u / m) * q). pose proof (Z.div_mod u m ltac:(lia)) as D.
    assert (HE : u' * q = 1 + (q - v - u / m * q) * m).
    { unfold u'. replace (u mod m) with (u - m * (u / m)) by lia. replace 1 with (u * q + v * m) by exact H. ring. }
    split; [|exact HE]. assert (1 <= u' * q) by (unfold u'; nia). nia. }
  destruct E as [k [HK HE]].
  assert (P1 : cong r (b ^ (u' * q)) 1).
  { rewrite Z.mul_comm, Z.pow_mul_r by (unfold u'; lia). eapply cong_trans; [apply cong_pow; [exact H1|unfold u'; lia]|]. rewrite Z.pow_1_l by (unfold u'; lia). apply cong_refl. }
  rewrite HE, Z.pow_add_r in P1 by nia. rewrite Z.pow_1_r in P1.
  assert (P2 : cong r (b ^ (k * m)) 1).
  { rewrite Z.mul_comm, Z.pow_mul_r by lia. eapply cong_trans; [apply cong_pow; [exact H2|lia]|]. rewrite Z.pow_1_l by lia. apply cong_refl. }
  eapply cong_trans; [|exact P1]. apply cong_sym. eapply cong_trans; [apply cong_mul; [apply cong_refl|exact P2]|]. rewrite Z.mul_1_r. apply cong_refl.
Qed.

Lemma pocklington : forall n q a r u v, 1 < n -> prime q -> (q | n - 1) -> cong n (a ^ (n - 1)) 1 ->
  u * (a ^ ((n - 1) / q) - 1) + v * n = 1 -> prime r -> (r | n) -> (q | r - 1).
Proof.
  intros n q a r u v HN HQ HD HA HU HR HRN. pose proof (prime_ge_2 q HQ) as Q2. pose proof (prime_ge_2 r HR) as R2.
  set (b := a ^ ((n - 1) / q)) in *. destruct HD as [m HM].
  assert (HM' : (n - 1) / q = m) by (rewrite HM; apply Z.div_mul; lia). assert (M0 : 0 <= m) by nia.
  assert (B1 : cong r (b ^ q) 1).
  { apply (cong_weaken n); [exact HRN|]. unfold b. rewrite HM', <- Z.pow_mul_r, <- HM by lia. exact HA. }
  assert (B2 : ~ cong r b 1).
  { intros C. apply cong_divide in C. assert (D : (r | 1)); [|apply Z.divide_1_r in D; lia].
    rewrite <- HU. apply Z.divide_add_r; [now apply Z.divide_mul_r|now apply Z.divide_mul_r]. }
  assert (B3 : cong r (b ^ (r - 1)) 1).
  { apply fermat; [exact HR|]. intros D. assert (K : (r | 1)); [|apply Z.divide_1_r in K; lia].
    apply cong_divide in B1. replace 1 with (b ^ q - (b ^ q - 1)) by ring. apply Z.divide_sub_r; [|exact B1].
    replace q with (Z.succ (q - 1)) by lia. rewrite Z.pow_succ_r by lia. now apply Z.divide_mul_l. }
  destruct (Zdivide_dec q (r - 1)) as [C|C]; [exact C|]. exfalso. apply B2.
  apply (pow_gcd_one r b q (r - 1)); [lia|lia| |exact B1|exact B3]. now apply prime_rel_prime.
Qed.

(** No prime divisor up to the square root. *)
Lemma prime_by_divisors : forall n, 1 < n -> (forall r, prime r -> (r | n) -> n < r * r) -> prime n.
Proof.
  intros n HN H. destruct (prime_dec n) as [P|P]; [exact P|]. exfalso.
  destruct (not_prime_divide n HN P) as [m [[H1 H2] H3]].
  assert (G : forall k m, 0 < m < k -> 1 < m -> exists r, prime r /\ (r | m)).
  { intros k. assert (HK : 0 <= Z.max 0 k) by lia. assert (K : forall j, 0 <= j -> forall m, 0 < m < j -> 1 < m -> exists r, prime r /\ (r | m)).
    { intros j HJ. pattern j. apply natlike_ind; [intros x Hx; lia| |exact HJ]. intros z HZ IH x HX H4.
      destruct (prime_dec x) as [PX|PX]; [exists x; split; [exact PX|apply Z.divide_refl]|].
      destruct (not_prime_divide x H4 PX) as [y [[Y1 Y2] Y3]]. destruct (IH y ltac:(lia) Y1) as [r [R1 R2]]. exists r. split; [exact R1|]. eapply Z.divide_trans; eauto. }
    intros x HX. apply (K k); lia. }
  destruct H3 as [m' HM]. assert (M2 : 1 < m') by nia.
  destruct (Z.le_ge_cases m m') as [C|C].
  - destruct (G (m + 1) m ltac:(lia) H1) as [r [R1 R2]]. assert (D : (r | n)) by (subst n; now apply Z.divide_mul_r).
    specialize (H r R1 D). apply Z.divide_pos_le in R2; [|lia]. pose proof (prime_ge_2 r R1). nia.
  - destruct (G (m' + 1) m' ltac:(lia) M2) as [r [R1 R2]]. assert (D : (r | n)) by (subst n; now apply Z.divide_mul_l).
    specialize (H r R1 D). apply Z.divide_pos_le in R2; [|lia]. pose proof (prime_ge_2 r R1). nia.
Qed.
Lemma prime_pock : forall n f, 1 < n -> 0 < f -> n <= f * f -> (forall r, prime r -> (r | n) -> (f | r - 1)) -> prime n.
Proof.
  intros n f HN HF HFF H. apply prime_by_divisors; [exact HN|]. intros r R1 R2. pose proof (prime_ge_2 r R1).
  specialize (H r R1 R2). apply Z.divide_pos_le in H; [|lia]. nia.
Qed.
Lemma divide_both : forall p q m, prime p -> prime q -> p <> q -> (p | m) -> (q | m) -> (p * q | m).
Proof.
  intros p q m HP HQ HN [k H1] H2. subst m. assert (D : (q | k)).
  { destruct (prime_mult q HQ _ _ H2) as [C|C]; [exact C|]. apply prime_div_prime in C; auto. congruence. }
  destruct D as [j D]. subst k. exists j. ring.
Qed.

(** ** Small primes by trial division *)

Fixpoint trial (fuel : nat) (n d : Z) : bool :=
  match fuel with
  | O => false
  | S f => if n <? d * d then true else if n mod d =? 0 then false else trial f n (d + 1)
  end.
Lemma trial_ok : forall fuel n d, 1 < n -> 1 < d -> (forall r, prime r -> (r | n) -> d <= r) -> trial fuel n d = true -> prime n.
Proof.
  induction fuel as [|fuel IH]; intros n d HN HD HI H; [discriminate|]. cbn [trial] in H.
  destruct (Z.ltb_spec n (d * d)) as [C|C].
  - apply prime_by_divisors; [exact HN|]. intros r R1 R2. specialize (HI r R1 R2). nia.
  - destruct (Z.eqb_spec (n mod d) 0) as [Z0|Z0]; [discriminate|]. apply (IH n (d + 1)); [exact HN|lia| |exact H].
    intros r R1 R2. specialize (HI r R1 R2). assert (r <> d); [|lia]. intros ->. apply Z0. apply Z.mod_divide; [lia|exact R2].
Qed.
Lemma prime_trial : forall fuel n, 1 < n -> trial fuel n 2 = true -> prime n.
Proof. intros fuel n HN H. apply (trial_ok fuel n 2); [exact HN|lia| |exact H]. intros r HR _. exact (prime_ge_2 r HR). Qed.

(** ** Powers with given quotients *)

(** One square-and-multiply step per element: whether to multiply by [a], quotient and remainder of the result. *)
Fixpoint steps (n a v : Z) (l : list (bool * Z * Z)) : option Z :=
  match l with
  | [] => Some v
  | (b, h, r) :: l' => if (if b : bool then a * (v * v) else v * v) =? h * n + r then steps n a r l' else None
  end.
Fixpoint exponent_of (e : Z) (l : list (bool * Z * Z)) : Z :=
  match l with
  | [] => e
  | (b, _, _) :: l' => exponent_of (2 * e + if b : bool then 1 else 0) l'
  end.
Lemma steps_ok : forall l n a v e w, 0 <= e -> cong n (a ^ e) v -> steps n a v l = Some w -> 0 <= exponent_of e l /\ cong n (a ^ exponent_of e l) w.
Proof.
  induction l as [|[[b h] r] l IH]; intros n a v e w HE HV H; cbn [steps exponent_of] in *.
  - injection H as ->. split; assumption.
  - destruct (Z.eqb_spec (if b then a * (v * v) else v * v) (h * n + r)) as [C|C]; [|discriminate].
    apply (IH n a r); [destruct b; lia| |exact H].
    assert (K : cong n (a ^ (2 * e)) (v * v)).
    { replace (2 * e) with (e + e) by lia. rewrite Z.pow_add_r by lia. now apply cong_mul. }
    destruct b.
    + rewrite Z.pow_add_r, Z.pow_1_r by lia. eapply cong_trans; [apply cong_mul; [exact K|apply cong_refl]|]. exists h. lia.
    + rewrite Z.add_0_r. eapply cong_trans; [exact K|]. exists h. lia.
Qed.
Lemma power_is : forall n a l e w, steps n a 1 l = Some w -> exponent_of 0 l = e -> cong n (a ^ e) w.
Proof. intros n a l e w H <-. apply (steps_ok l n a 1 0 w); [lia|cbn; apply cong_refl|exact H]. Qed.

(** ** Certificates *)

Lemma bezout_power : forall n x z u v, cong n x z -> u * (z - 1) + v * n = 1 -> exists u' v', u' * (x - 1) + v' * n = 1.
Proof. intros n x z u v [k H] HB. exists u, (v - u * k). subst x. transitivity (u * (z - 1) + v * n); [ring|exact HB]. Qed.
(** [n - 1] has the prime factors [s] and [q], which together exceed the square root of [n]. *)
Lemma prime_two : forall n s q a w z lw l1 lz uw vw uz vz, 1 < n -> prime s -> prime q -> s <> q -> (n - 1) mod (s * q) = 0 -> n <= (s * q) * (s * q) ->
  steps n a 1 lw = Some w -> exponent_of 0 lw = (n - 1) / s -> steps n w 1 l1 = Some 1 -> exponent_of 0 l1 = s ->
  steps n a 1 lz = Some z -> exponent_of 0 lz = (n - 1) / q -> uw * (w - 1) + vw * n = 1 -> uz * (z - 1) + vz * n = 1 -> prime n.
Proof.
  intros n s q a w z lw l1 lz uw vw uz vz HN HS HQ HSQ HD HF H1 E1 H2 E2 H3 E3 BW BZ.
  pose proof (prime_ge_2 s HS) as S2. pose proof (prime_ge_2 q HQ) as Q2.
  apply Z.mod_divide in HD; [|nia].
  assert (DS : (s | n - 1)) by (eapply Z.divide_trans; [|exact HD]; apply Z.divide_factor_l).
  assert (DQ : (q | n - 1)) by (eapply Z.divide_trans; [|exact HD]; apply Z.divide_factor_r).
  pose proof (power_is n a lw _ w H1 E1) as PW. pose proof (power_is n a lz _ z H3 E3) as PZ. pose proof (power_is n w l1 _ 1 H2 E2) as P1.
  assert (PA : cong n (a ^ (n - 1)) 1).
  { destruct DS as [m HM]. assert (E : (n - 1) / s = m) by (rewrite HM; apply Z.div_mul; lia). rewrite E in PW.
    rewrite HM, Z.pow_mul_r by nia. eapply cong_trans; [apply cong_pow; [exact PW|lia]|exact P1]. }
  destruct (bezout_power n _ w uw vw PW BW) as [u1 [v1 B1]]. destruct (bezout_power n _ z uz vz PZ BZ) as [u2 [v2 B2]].
  apply (prime_pock n (s * q)); [exact HN|nia|exact HF|]. intros r HR HRN. apply divide_both; [exact HS|exact HQ|exact HSQ| |].
  - exact (pocklington n s a r u1 v1 HN HS DS PA B1 HR HRN).
  - exact (pocklington n q a r u2 v2 HN HQ DQ PA B2 HR HRN).
Qed.
(** [a] is no square and [n - 1] has a prime factor [q] that exceeds the square root of [n]. *)
Lemma prime_euler : forall n q a z lh lz uz vz, 2 < n -> prime q -> (n - 1) mod 2 = 0 -> (n - 1) mod q = 0 -> n <= q * q ->
  steps n a 1 lh = Some (n - 1) -> exponent_of 0 lh = (n - 1) / 2 ->
  steps n a 1 lz = Some z -> exponent_of 0 lz = (n - 1) / q -> uz * (z - 1) + vz * n = 1 -> prime n /\ cong n (a ^ ((n - 1) / 2)) (-1).
Proof.
  intros n q a z lh lz uz vz HN HQ H2 HD HF H1 E1 H3 E3 BZ. pose proof (prime_ge_2 q HQ) as Q2.
  apply Z.mod_divide in HD; [|lia]. apply Z.mod_divide in H2; [|lia].
  pose proof (power_is n a lh _ _ H1 E1) as PH. pose proof (power_is n a lz _ z H3 E3) as PZ.
  assert (PM : cong n (a ^ ((n - 1) / 2)) (-1)) by (eapply cong_trans; [exact PH|]; exists 1; lia).
  split; [|exact PM].
  assert (PA : cong n (a ^ (n - 1)) 1).
  { destruct H2 as [m HM]. assert (E : (n - 1) / 2 = m) by (rewrite HM; apply Z.div_mul; lia). rewrite E in PM.
    rewrite HM, Z.pow_mul_r by nia. eapply cong_trans; [apply cong_pow; [exact PM|lia]|]. exists 0. reflexivity. }
  destruct (bezout_power n _ z uz vz PZ BZ) as [u2 [v2 B2]].
  apply (prime_pock n q); [lia|lia|exact HF|]. intros r HR HRN. exact (pocklington n q a r u2 v2 ltac:(lia) HQ HD PA B2 HR HRN).
Qed.
(** Euler: then [a] is not a square. *)
Lemma euler_nonsquare : forall n a x, prime n -> 2 < n -> (n - 1) mod 2 = 0 -> cong n (a ^ ((n - 1) / 2)) (-1) -> ~ cong n (x * x) a.
Proof.
  intros n a x HP HN H2 HE HC. apply Z.mod_divide in H2; [|lia]. destruct H2 as [m HM].
  assert (E : (n - 1) / 2 = m) by (rewrite HM; apply Z.div_mul; lia). rewrite E in HE. assert (M0 : 0 < m) by lia.
  assert (K : cong n (x ^ (n - 1)) (-1)).
  { rewrite HM, Z.mul_comm, Z.pow_mul_r by lia. replace (x ^ 2) with (x * x) by (rewrite Z.pow_2_r; reflexivity).
    eapply cong_trans; [apply cong_pow; [exact HC|lia]|exact HE]. }
  destruct (Zdivide_dec n x) as [D|D].
  - assert (D' : (n | x ^ (n - 1))).
    { replace (n - 1) with (Z.succ (n - 2)) by lia. rewrite Z.pow_succ_r by lia. now apply Z.divide_mul_l. }
    apply cong_divide in K. assert (C : (n | 1)); [|apply Z.divide_1_r in C; lia].
    replace 1 with ((x ^ (n - 1) - -1) - x ^ (n - 1)) by ring. now apply Z.divide_sub_r.
  - pose proof (fermat n x HP D) as F. assert (C : cong n 1 (-1)) by (eapply cong_trans; [apply cong_sym; exact F|exact K]).
    apply cong_divide in C. apply Z.divide_pos_le in C; lia.
Qed.
