(** Bytes by index, and AES-256-GCM of the model against NIST SP 800-38D. Used by C71. *)

From Coq Require Import Ascii String Arith NArith List Bool Lia.
From Verif Require Import Bytes BytesFacts ChaCha Sha256 Sha512 Aead AeadFacts SpecPrim PrimFacts PrimFacts2.
Import ListNotations.
Local Open Scope N_scope.

(** ** Bytes by index *)

Lemma byte_at_app1 : forall a b i, (i < String.length a)%nat -> byte_at (a ++ b) i = byte_at a i.
Proof. induction a as [|c a IH]; intros b i h; cbn [String.length] in h; [lia|]. destruct i as [|i]; [reflexivity|]. exact (IH b i ltac:(lia)). Qed.
Lemma byte_at_app2 : forall a b i, byte_at (a ++ b) (String.length a + i) = byte_at b i.
Proof. induction a as [|c a IH]; intros b i; [reflexivity|]. exact (IH b i). Qed.
Lemma byte_at_take : forall n s i, (i < n)%nat -> byte_at (take n s) i = byte_at s i.
Proof. induction n as [|n IH]; intros s i h; [lia|]. destruct s as [|c s]; [reflexivity|]. destruct i as [|i]; [reflexivity|]. exact (IH s i ltac:(lia)). Qed.
Lemma byte_at_drop : forall n s i, byte_at (drop n s) i = byte_at s (n + i).
Proof. induction n as [|n IH]; intros s i; [reflexivity|]. destruct s as [|c s]; [destruct i; reflexivity|]. exact (IH s i). Qed.
Lemma byte_at_xor : forall a b i, (i < String.length a)%nat -> (i < String.length b)%nat -> byte_at (xor_bytes a b) i = N.lxor (byte_at a i) (byte_at b i).
Proof.
  induction a as [|x a IH]; intros b i h1 h2; cbn [String.length] in h1; [lia|]. destruct b as [|y b]; cbn [String.length] in h2; [lia|].
  destruct i as [|i]; [|exact (IH b i ltac:(lia) ltac:(lia))]. change (code (chr (N.lxor (code x) (code y))) = N.lxor (code x) (code y)).
  apply code_chr, lxor_byte; apply code_lt.
Qed.
Lemma concat_cons : forall a l, String.concat "" (a :: l) = (a ++ String.concat "" l)%string.
Proof. intros a [|b l]; cbn [String.concat]; [symmetry; apply sapp_nil_r|reflexivity]. Qed.
Lemma byte_at_concat : forall (f : nat -> string) m, (forall i, String.length (f i) = m) -> forall n a q r, (q < n)%nat -> (r < m)%nat ->
  byte_at (String.concat "" (map f (seq a n))) (m * q + r) = byte_at (f (a + q)%nat) r.
Proof.
  intros f m hf. induction n as [|n IH]; intros a q r hq hr; [lia|]. cbn [seq map]. rewrite concat_cons. destruct q as [|q].
  - rewrite Nat.mul_0_r, !Nat.add_0_r. apply byte_at_app1. rewrite hf. exact hr.
  - replace (m * S q + r)%nat with (String.length (f a) + (m * q + r))%nat by (rewrite hf; lia). rewrite byte_at_app2.
    rewrite IH by lia. f_equal. f_equal. lia.
Qed.
Lemma stream_at : forall (f : nat -> string) a m l j, (0 < m)%nat -> (forall i, String.length (f i) = m) -> (j < l)%nat ->
  byte_at (take l (String.concat "" (map f (seq a (S (l / m)))))) j = byte_at (f (a + j / m)%nat) (j mod m).
Proof.
  intros f a m l j hm hf hj. rewrite byte_at_take by exact hj. rewrite (Nat.div_mod j m) at 1 by lia. apply byte_at_concat; [exact hf| |].
  - pose proof (Nat.div_le_mono j l m ltac:(lia) ltac:(lia)). lia.
  - apply Nat.mod_upper_bound. lia.
Qed.
Lemma substring_take : forall n s, substring 0 n s = take n s.
Proof. induction n as [|n IH]; intros [|c s]; cbn [substring take]; try reflexivity. now rewrite IH. Qed.
Lemma substring_drop : forall m n s, substring m n s = take n (drop m s).
Proof. induction m as [|m IH]; intros n s; [apply substring_take|]. destruct s as [|c s]; cbn [substring drop]; [destruct n; reflexivity|]. apply IH. Qed.
Lemma be_at_ext : forall k s t a b, (forall i, (i < k)%nat -> byte_at s (a + i) = byte_at t (b + i)) -> be_at k s a = be_at k t b.
Proof.
  induction k as [|k IH]; intros s t a b h; [reflexivity|]. unfold be_at. rewrite seq_S, !fold_left_app. cbn [fold_left Nat.add].
  change (be_at k s a * 256 + byte_at s (a + k) = be_at k t b * 256 + byte_at t (b + k)). rewrite (IH s t a b) by (intros; apply h; lia). rewrite (h k) by lia. reflexivity.
Qed.
Lemma be_at_S : forall k s a, be_at (S k) s a = be_at k s a * 256 + byte_at s (a + k).
Proof. intros k s a. unfold be_at. rewrite seq_S, fold_left_app. reflexivity. Qed.
Lemma be_at_endian : forall k x, be_at k (big_endian k x) 0 = x mod 256 ^ N.of_nat k.
Proof.
  induction k as [|k IH]; intro x; [rewrite N.mod_1_r; reflexivity|]. rewrite be_at_S. cbn [big_endian Nat.add].
  rewrite (be_at_ext k _ (big_endian k (x / 256)) 0 0) by (intros i hi; apply byte_at_app1; rewrite big_endian_length; exact hi). rewrite IH.
  pose proof (byte_at_app2 (big_endian k (x / 256)) (byte (x mod 256)) 0) as e. rewrite big_endian_length, Nat.add_0_r in e. rewrite e.
  change (byte_at (byte (x mod 256)) 0) with (code (chr (x mod 256))). rewrite code_chr by (apply N.mod_lt; discriminate).
  rewrite Nat2N.inj_succ, N.pow_succ_r'. rewrite N.mod_mul_r by (try apply N.pow_nonzero; discriminate). lia.
Qed.
Lemma be_bytes_is : forall n x, be_bytes n x = big_endian n x.
Proof.
  induction n as [|n IH]; intro x; [reflexivity|]. cbn [be_bytes]. rewrite IH. change (S n) with (1 + n)%nat. rewrite big_endian_app. cbn [big_endian append byte].
  rewrite N.shiftr_div_pow2, N.pow_mul_r. reflexivity.
Qed.
Lemma join_bytes : forall a b c d, b < 256 -> d < 256 -> N.lxor (a * 256 + b) (c * 256 + d) = N.lxor a c * 256 + N.lxor b d.
Proof.
  intros a b c d hb hd. change 256 with (2 ^ 8) in *. rewrite !(N.add_comm (_ * _)). rewrite <- !lor_add by (try apply lxor_lt; assumption).
  apply N.bits_inj. intro i. rewrite !N.lor_spec, !N.lxor_spec, !N.lor_spec. destruct (N.lt_ge_cases i 8) as [l|l].
  - rewrite !N.mul_pow2_bits_low by exact l. rewrite !orb_false_r. reflexivity.
  - rewrite (low_bits b 8 i hb l), (low_bits d 8 i hd l). rewrite !N.mul_pow2_bits_high by exact l. rewrite N.lxor_spec. reflexivity.
Qed.
Lemma be_at_xor : forall k a b o, (o + k <= String.length a)%nat -> (o + k <= String.length b)%nat -> be_at k (xor_bytes a b) o = N.lxor (be_at k a o) (be_at k b o).
Proof.
  induction k as [|k IH]; intros a b o h1 h2; [reflexivity|]. rewrite !be_at_S. rewrite IH by lia. rewrite byte_at_xor by lia. symmetry. apply join_bytes; apply byte_bound.
Qed.
Lemma be_at_app2 : forall k a b o, be_at k (a ++ b) (String.length a + o) = be_at k b o.
Proof. intros. apply be_at_ext. intros i _. rewrite <- Nat.add_assoc. apply byte_at_app2. Qed.
Lemma be_num_is : forall s a, be_num a s = a * 256 ^ N.of_nat (String.length s) + be_at (String.length s) s 0.
Proof.
  induction s as [|c s IH]; intro a; [cbn; lia|]. cbn [be_num]. rewrite IH. cbn [String.length]. change (S (String.length s)) with (1 + String.length s)%nat.
  rewrite be_at_split. change (0 + 1)%nat with 1%nat. rewrite be_at_shift. change (be_at 1 (String c s) 0) with (0 * 256 + code c). rewrite Nat2N.inj_add, N.pow_add_r. change (256 ^ N.of_nat 1) with 256. lia.
Qed.
Lemma pad16_is : forall s, padded16 s (pad16 s).
Proof.
  intro s. unfold pad16. set (l := String.length s). pose proof (Nat.div_mod l 16 ltac:(lia)) as e. pose proof (Nat.mod_upper_bound l 16 ltac:(lia)) as b.
  exists ((16 - l mod 16) mod 16)%nat. rewrite zeros_is. assert (hz : ((16 - l mod 16) mod 16 < 16)%nat) by (apply Nat.mod_upper_bound; lia).
  destruct (Nat.eq_dec (l mod 16) 0) as [z|z].
  - exists (l / 16)%nat. split; [exact hz|]. split; [reflexivity|]. rewrite slen_app, <- zeros_is, zeros_len. fold l. rewrite z. change ((16 - 0) mod 16)%nat with 0%nat. lia.
  - exists (S (l / 16))%nat. split; [exact hz|]. split; [reflexivity|]. rewrite slen_app, <- zeros_is, zeros_len. fold l. rewrite (Nat.mod_small (16 - l mod 16) 16) by lia. lia.
Qed.
Lemma drop_drop : forall a b s, drop b (drop a s) = drop (a + b) s.
Proof. induction a as [|a IH]; intros b s; [reflexivity|]. destruct s as [|c s]; cbn [drop Nat.add]; [destruct b; reflexivity|]. apply IH. Qed.
Lemma pieces_is : forall n s m, String.length s = (16 * n)%nat -> (n <= m)%nat -> pieces m s = map (fun i => take 16 (drop (16 * i) s)) (seq 0 n).
Proof.
  induction n as [|n IH]; intros s m hl hm.
  - destruct s; [|discriminate hl]. destruct m; reflexivity.
  - destruct m as [|m]; [lia|]. destruct s as [|c s]; [cbn in hl; lia|]. remember (String c s) as t eqn:et.
    assert (e : pieces (S m) t = take 16 t :: pieces m (drop 16 t)) by (rewrite et; reflexivity). rewrite e. cbn [seq map].
    f_equal. rewrite (IH (drop 16 t) m); [|rewrite drop_length; lia|lia]. rewrite <- seq_shift, map_map. apply map_ext. intro i. rewrite drop_drop. f_equal. f_equal. lia.
Qed.
Lemma piece_length : forall n s i, String.length s = (16 * n)%nat -> (i < n)%nat -> String.length (take 16 (drop (16 * i) s)) = 16%nat.
Proof. intros n s i h hi. apply take_length. rewrite drop_length. lia. Qed.
Lemma piece_be : forall n s i, String.length s = (16 * n)%nat -> (i < n)%nat -> be_num 0 (take 16 (drop (16 * i) s)) = be_at 16 s (16 * i).
Proof.
  intros n s i h hi. rewrite be_num_is, (piece_length n s i h hi), N.mul_0_l, N.add_0_l. apply be_at_ext. intros j hj. cbn [Nat.add].
  rewrite byte_at_take by exact hj. apply byte_at_drop.
Qed.

(** ** Multiplication of blocks *)

Fixpoint of_bits (n : nat) (f : N -> bool) : N := match n with O => 0 | S n' => 2 * of_bits n' (fun i => f (N.succ i)) + N.b2n (f 0) end.
Lemma of_bits_at : forall n f i, i < N.of_nat n -> N.testbit (of_bits n f) i = f i.
Proof.
  induction n as [|n IH]; intros f i h; [lia|]. cbn [of_bits]. destruct (N.eq_0_gt_0_cases i) as [->|p]; [apply N.testbit_0_r|].
  rewrite <- (N.succ_pred i) by lia. rewrite N.testbit_succ_r, IH by lia. reflexivity.
Qed.
Lemma of_bits_lt : forall n f, of_bits n f < 2 ^ N.of_nat n.
Proof.
  induction n as [|n IH]; intro f; [reflexivity|]. cbn [of_bits]. rewrite Nat2N.inj_succ, N.pow_succ_r'. specialize (IH (fun i => f (N.succ i))).
  destruct (f 0); cbn [N.b2n]; lia.
Qed.
Definition mirror (x : N) : N := of_bits 128 (fun i => N.testbit x (127 - i)).
Lemma mirror_ok : forall x, mirrored x (mirror x).
Proof. intro x. split; [apply (of_bits_lt 128)|]. intros i hi. exact (of_bits_at 128 (fun j => N.testbit x (127 - j)) i hi). Qed.
Lemma mirror_high : forall x i, 128 <= i -> N.testbit (mirror x) i = false.
Proof. intros x i h. apply (low_bits _ 128); [apply mirror_ok|exact h]. Qed.
Lemma mirror_at : forall x i, i < 128 -> N.testbit (mirror x) i = N.testbit x (127 - i).
Proof. intros x i h. exact (proj2 (mirror_ok x) i h). Qed.
Opaque mirror.
Lemma mirror_xor : forall a b, mirror (N.lxor a b) = N.lxor (mirror a) (mirror b).
Proof.
  intros a b. apply N.bits_inj. intro i. rewrite N.lxor_spec. destruct (N.lt_ge_cases i 128) as [l|l].
  - rewrite !mirror_at by exact l. apply N.lxor_spec.
  - rewrite !mirror_high by exact l. reflexivity.
Qed.
Lemma mirror_0 : mirror 0 = 0.
Proof. vm_compute. reflexivity. Qed.
Definition gf_low : N := 299076299051606071403356588563077529600.
Lemma gf_low_bits : forall i, i < 128 -> N.testbit gf_low (127 - i) = N.testbit (2 ^ 128 + 135) i.
Proof.
  assert (h : forallb (fun n => Bool.eqb (N.testbit gf_low (127 - N.of_nat n)) (N.testbit (2 ^ 128 + 135) (N.of_nat n))) (seq 0 128) = true) by (vm_compute; reflexivity).
  rewrite forallb_forall in h. intros i hi. specialize (h (N.to_nat i)). rewrite N2Nat.id in h. apply Bool.eqb_prop, h, in_seq. lia.
Qed.
Lemma gf_mod_high : forall i, 128 < i -> N.testbit (2 ^ 128 + 135) i = false.
Proof. intros i h. apply (low_bits _ 129); [reflexivity|lia]. Qed.
Definition shifted (v : N) : N := if N.testbit v 0 then N.lxor (N.shiftr v 1) gf_low else N.shiftr v 1.
Lemma shifted_lt : forall v, v < 2 ^ 128 -> shifted v < 2 ^ 128.
Proof.
  intros v h. assert (hs : N.shiftr v 1 < 2 ^ 128) by (rewrite N.shiftr_div_pow2; apply N.div_lt_upper_bound; [discriminate|change (2 ^ 1) with 2; lia]).
  unfold shifted. destruct (N.testbit v 0); [apply lxor_lt; [exact hs|reflexivity]|exact hs].
Qed.
Lemma shifted_mirror : forall v, v < 2 ^ 128 -> mirror (shifted v) = if N.testbit v 0 then N.lxor (2 * mirror v) (2 ^ 128 + 135) else 2 * mirror v.
Proof.
  intros v h.
  assert (top : forall i, i < 128 -> N.testbit (N.shiftr v 1) (127 - i) = N.testbit (2 * mirror v) i).
  { intros i hi. rewrite N.shiftr_spec by lia. destruct (N.eq_0_gt_0_cases i) as [->|p].
    - rewrite N.testbit_even_0. apply (low_bits v 128 _ h). lia.
    - rewrite <- (N.succ_pred i) at 2 by lia. rewrite N.double_bits_succ, mirror_at by lia. f_equal. lia. }
  assert (b127 : N.testbit (2 * mirror v) 128 = N.testbit v 0) by (change 128 with (N.succ 127) at 1; rewrite N.double_bits_succ, mirror_at by lia; reflexivity).
  assert (high : forall i, 128 < i -> N.testbit (2 * mirror v) i = false) by (intros i hi; rewrite <- (N.succ_pred i) by lia; rewrite N.double_bits_succ; apply mirror_high; lia).
  apply N.bits_inj. intro i. unfold shifted. destruct (N.lt_ge_cases i 128) as [l|l].
  - rewrite mirror_at by exact l. destruct (N.testbit v 0); [rewrite !N.lxor_spec; f_equal; [apply top, l|apply gf_low_bits, l]|apply top, l].
  - rewrite mirror_high by exact l. destruct (N.eq_dec i 128) as [->|ne].
    + destruct (N.testbit v 0) eqn:e; [rewrite N.lxor_spec|]; rewrite b127; reflexivity.
    + destruct (N.testbit v 0) eqn:e; [rewrite N.lxor_spec, gf_mod_high by lia|]; rewrite high by lia; reflexivity.
Qed.
Notation gf_rem := (remainder 128 (2 ^ 128 + 135)).
Lemma shifted_rem : forall v x, v < 2 ^ 128 -> gf_rem x (mirror v) -> gf_rem (2 * x) (mirror (shifted v)).
Proof.
  intros v x h [_ [q e]]. split; [apply mirror_ok|]. rewrite (shifted_mirror v h). rewrite e, lxor_double, <- times_double_l. destruct (N.testbit v 0).
  - exists (N.lxor 1 (2 * q)). rewrite times_add_l, times_1_l. rewrite N.lxor_assoc, <- (N.lxor_assoc (2 ^ 128 + 135)), N.lxor_nilpotent, N.lxor_0_l. reflexivity.
  - exists (2 * q). reflexivity.
Qed.
Lemma times_pow : forall n y, times (2 ^ n) y = 2 ^ n * y.
Proof.
  intros n y. induction n as [|n IH] using N.peano_ind; [rewrite times_1_l; lia|]. rewrite N.pow_succ_r', times_double_l, IH. lia.
Qed.
Lemma mod_next : forall x n, x mod 2 ^ N.succ n = N.lxor (x mod 2 ^ n) (if N.testbit x n then 2 ^ n else 0).
Proof.
  intros x n. apply N.bits_inj. intro i. rewrite N.lxor_spec. destruct (N.lt_total i n) as [l|[->|l]].
  - rewrite !N.mod_pow2_bits_low by lia. destruct (N.testbit x n); [rewrite N.pow2_bits_false by lia|rewrite N.bits_0]; destruct (N.testbit x i); reflexivity.
  - rewrite N.mod_pow2_bits_low by lia. rewrite N.mod_pow2_bits_high by lia. destruct (N.testbit x n); [rewrite N.pow2_bits_true|rewrite N.bits_0]; reflexivity.
  - rewrite !N.mod_pow2_bits_high by lia. destruct (N.testbit x n); [rewrite N.pow2_bits_false by lia|rewrite N.bits_0]; reflexivity.
Qed.
Lemma rem_0 : gf_rem 0 0.
Proof. split; [reflexivity|]. exists 0. rewrite times_0_l. reflexivity. Qed.
Lemma rem_small : forall y, y < 2 ^ 128 -> gf_rem y y.
Proof. intros y h. split; [exact h|]. exists 0. rewrite times_0_l, N.lxor_0_r. reflexivity. Qed.
Lemma gf_gen : forall x y n, y < 2 ^ 128 -> (n <= 128)%nat ->
  let '(z, v) := fold_left (gf_step x) (map (fun j => N.of_nat (127 - j)) (seq 0 n)) (0, y) in
  v < 2 ^ 128 /\ z < 2 ^ 128 /\ gf_rem (2 ^ N.of_nat n * mirror y) (mirror v) /\ gf_rem (times (mirror x mod 2 ^ N.of_nat n) (mirror y)) (mirror z).
Proof.
  intros x y n hy. induction n as [|n IH]; intro hn.
  - cbn [seq map fold_left]. split; [exact hy|]. split; [reflexivity|]. change (2 ^ N.of_nat 0) with 1. rewrite N.mul_1_l, N.mod_1_r, times_0_l, mirror_0.
    split; [apply rem_small, mirror_ok|exact rem_0].
  - specialize (IH ltac:(lia)). rewrite seq_S, map_app, fold_left_app. cbn [map fold_left Nat.add].
    destruct (fold_left (gf_step x) (map (fun j => N.of_nat (127 - j)) (seq 0 n)) (0, y)) as [z v]. destruct IH as [h1 [h2 [h3 h4]]]. unfold gf_step.
    change (if N.testbit v 0 then N.lxor (N.shiftr v 1) 299076299051606071403356588563077529600 else N.shiftr v 1) with (shifted v).
    rewrite Nat2N.inj_succ. rewrite mod_next, times_add_l, N.pow_succ_r'. rewrite mirror_at by lia. replace (127 - N.of_nat n) with (N.of_nat (127 - n)) by lia.
    split; [apply shifted_lt, h1|]. split; [destruct (N.testbit x (N.of_nat (127 - n))); [apply lxor_lt; assumption|exact h2]|].
    split; [rewrite <- N.mul_assoc; apply shifted_rem; assumption|]. destruct (N.testbit x (N.of_nat (127 - n))).
    + rewrite mirror_xor, times_pow. apply remainder_add; assumption.
    + rewrite times_0_l, N.lxor_0_r. exact h4.
Qed.
Lemma gf_mul_is : forall x y, y < 2 ^ 128 -> gf128 x y (gf_mul x y).
Proof.
  intros x y h. unfold gf_mul. change (map N.of_nat (rev (seq 0 128))) with (map (fun j => N.of_nat (127 - j)) (seq 0 128)).
  pose proof (gf_gen x y 128 h (le_n _)) as g. destruct (fold_left (gf_step x) (map (fun j => N.of_nat (127 - j)) (seq 0 128)) (0, y)) as [z v]. destruct g as [_ [hz [_ g]]].
  cbn [fst]. exists (mirror x), (mirror y), (mirror z). split; [exact hz|]. split; [apply mirror_ok|]. split; [apply mirror_ok|]. split; [apply mirror_ok|].
  change (N.of_nat 128) with 128 in g. rewrite N.mod_small in g by apply mirror_ok. exact g.
Qed.
Lemma ghash_is : forall h s n, h < 2 ^ 128 -> String.length s = (16 * n)%nat -> is_ghash h s (ghash h s) /\ ghash h s < 2 ^ 128.
Proof.
  intros h s n hh hl. unfold ghash. rewrite (pieces_is n s _ hl) by lia.
  set (f := fun y b => gf_mul (N.lxor y (be_num 0 b)) h). set (v := fun i => fold_left f (map (fun i => take 16 (drop (16 * i) s)) (seq 0 i)) 0).
  assert (step : forall i, (i < n)%nat -> gf128 (N.lxor (v i) (be_at 16 s (16 * i))) h (v (S i))).
  { intros i hi. unfold v at 2. rewrite seq_S, map_app, fold_left_app. cbn [map fold_left Nat.add]. fold (v i). unfold f. rewrite (piece_be n s i hl hi). apply gf_mul_is, hh. }
  split.
  - exists n, v. split; [exact hl|]. split; [reflexivity|]. split; [exact step|reflexivity].
  - change (v n < 2 ^ 128). destruct n as [|n]; [reflexivity|]. destruct (step n ltac:(lia)) as [a' [b' [c' [g _]]]]. exact g.
Qed.

(** ** The whole cipher *)

Lemma be_at_lt16 : forall s o, be_at 16 s o < 2 ^ 128.
Proof. intros s o. apply (be_at_bound 16). Qed.
Lemma be4_wrap : forall x, be4 (w32 x) = big_endian 4 x.
Proof. intro x. rewrite be4_is, w32_mod. apply (big_endian_mod 4). Qed.
Lemma gcm_raw : forall k n a p, String.length k = 32%nat -> String.length n = 12%nat ->
  is_gcm k n a p (xor_bytes p (gcm_stream k n (String.length p)) ++ gcm_tag k n a (xor_bytes p (gcm_stream k n (String.length p)))).
Proof.
  intros k n a p hk hn. set (body := xor_bytes p (gcm_stream k n (String.length p))). remember (body ++ gcm_tag k n a body)%string as c eqn:ec.
  assert (hl : String.length body = String.length p) by (apply xor_length; rewrite gcm_stream_length; lia).
  assert (hb : substring 0 (String.length p) c = body) by (rewrite substring_take, ec, <- hl; apply take_app).
  set (h := be_num 0 (aes_block (expand k) (zeros 16))).
  assert (eh : h = be_at 16 (aes_block (expand k) (zero_bytes 16)) 0) by (unfold h; rewrite be_num_is, aes_block_length, zeros_is; lia).
  assert (hh : h < 2 ^ 128) by (rewrite eh; apply be_at_lt16).
  set (data := (pad16 a ++ pad16 body ++ big_endian 8 (8 * N.of_nat (String.length a)) ++ big_endian 8 (8 * N.of_nat (String.length p)))%string).
  destruct (pad16_is a) as [z1 [n1 [pa1 [pa2 pa3]]]]. destruct (pad16_is body) as [z2 [n2 [pb1 [pb2 pb3]]]].
  assert (hd : String.length data = (16 * (n1 + n2 + 1))%nat) by (unfold data; rewrite !slen_app, !big_endian_length, pa3, pb3; lia).
  destruct (ghash_is h data _ hh hd) as [g1 g2].
  exists (aes_block (expand k)), (ghash h data), (pad16 a), (pad16 body). cbv zeta. rewrite hb.
  split; [intros b hb16; apply aes_is; assumption|]. split; [apply pad16_is|]. split; [apply pad16_is|]. split; [rewrite <- eh; exact g1|].
  split; [rewrite ec, slen_app, gcm_tag_length, hl; reflexivity|]. split.
  - intros j hj. rewrite ec, byte_at_app1 by lia. unfold body. rewrite byte_at_xor by (rewrite ?gcm_stream_length; exact hj). f_equal.
    unfold gcm_stream. cbv zeta. rewrite stream_at; [|lia|intro i; apply aes_block_length|exact hj]. unfold gcm_block. rewrite be4_wrap. replace (N.of_nat (2 + j / 16)) with (2 + N.of_nat (j / 16)) by lia. reflexivity.
  - rewrite ec, <- hl. rewrite <- (Nat.add_0_r (String.length body)). rewrite be_at_app2. unfold gcm_tag. cbv zeta. fold h.
    rewrite be_at_xor by (try rewrite be_bytes_length; try (unfold gcm_block; rewrite aes_block_length); lia). apply (f_equal2 N.lxor).
    + rewrite !be_bytes_is. unfold len64. rewrite hl. change (be_at 16 (big_endian 16 (ghash h data)) 0 = ghash h data). rewrite be_at_endian. apply N.mod_small. exact g2.
    + unfold gcm_block. rewrite be4_wrap. change (N.of_nat 1) with 1. reflexivity.
Qed.
Lemma gcm_is : forall k n a p c, aesgcm_enc k n a p = Some c -> is_gcm k n a p c.
Proof.
  intros k n a p c h. unfold aesgcm_enc in h. destruct (gcm_fits 0 k n a p) eqn:hf; [|discriminate h]. apply gcm_fits_ok in hf. destruct hf as [hk [hn _]].
  cbv zeta in h. pose proof (gcm_raw k n a p hk hn) as g. revert h g. generalize (xor_bytes p (gcm_stream k n (String.length p)) ++ gcm_tag k n a (xor_bytes p (gcm_stream k n (String.length p))))%string.
  intros t h g. injection h as <-. exact g.
Qed.
Lemma gcm_dec_is : forall k n a p c, aesgcm_dec k n a c = Some p -> is_gcm k n a p c.
Proof.
  intros k n a p c h. unfold aesgcm_dec in h. destruct (Nat.ltb_spec (String.length c) 16) as [|l]; [discriminate h|]. cbv zeta in h.
  set (body := take (String.length c - 16) c) in h. set (tag := drop (String.length c - 16) c) in h.
  destruct (gcm_fits 16 k n a body) eqn:hf; [|discriminate h]. destruct (String.eqb_spec tag (gcm_tag k n a body)) as [et|]; [|discriminate h]. cbn [andb] in h.
  apply gcm_fits_ok in hf. destruct hf as [hk [hn _]]. assert (ep : p = xor_bytes body (gcm_stream k n (String.length body))) by (symmetry; revert h; generalize (xor_bytes body (gcm_stream k n (String.length body))); intros t h; injection h as <-; reflexivity).
  assert (hl : String.length p = String.length body) by (rewrite ep; apply xor_length; rewrite gcm_stream_length; lia).
  assert (eb : xor_bytes p (gcm_stream k n (String.length p)) = body) by (rewrite hl, ep; apply xor_cancel; rewrite gcm_stream_length; lia).
  pose proof (gcm_raw k n a p hk hn) as g. rewrite eb, <- et in g. unfold body, tag in g. rewrite take_drop in g. exact g.
Qed.
