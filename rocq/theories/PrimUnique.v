(** The specification of the hash functions and ciphers has at most one result. Used by C71. *)

From Coq Require Import Ascii String Arith NArith List Bool Lia.
From Verif Require Import Bytes BytesFacts ChaCha Sha256 Sha512 Aead AeadFacts SpecPrim PrimFacts PrimFacts2 PrimFacts3 PrimFacts4.
Import ListNotations.
Local Open Scope N_scope.

(** ** Strings *)

Lemma string_ext : forall s t, String.length s = String.length t -> (forall i, (i < String.length s)%nat -> byte_at s i = byte_at t i) -> s = t.
Proof.
  induction s as [|c s IH]; intros [|d t] hl h; cbn [String.length] in *; try discriminate hl; [reflexivity|].
  assert (e : code c = code d) by exact (h 0%nat ltac:(lia)). assert (e' : c = d) by (rewrite <- (chr_code c), <- (chr_code d), e; reflexivity). subst d. f_equal.
  apply IH; [lia|]. intros i hi. exact (h (S i) ltac:(lia)).
Qed.
Lemma be_at_inj : forall k s t a b, be_at k s a = be_at k t b -> forall i, (i < k)%nat -> byte_at s (a + i) = byte_at t (b + i).
Proof.
  induction k as [|k IH]; intros s t a b e i hi; [lia|]. rewrite !be_at_S in e. pose proof (byte_bound s (a + k)). pose proof (byte_bound t (b + k)).
  assert (e1 : be_at k s a = be_at k t b) by nia. assert (e2 : byte_at s (a + k) = byte_at t (b + k)) by nia.
  destruct (Nat.eq_dec i k) as [->|ne]; [exact e2|]. apply IH; [exact e1|lia].
Qed.
Lemma le_at_inj : forall k s t a b, le_at k s a = le_at k t b -> forall i, (i < k)%nat -> byte_at s (a + i) = byte_at t (b + i).
Proof.
  induction k as [|k IH]; intros s t a b e i hi; [lia|]. rewrite !le_at_S in e. pose proof (byte_bound s a). pose proof (byte_bound t b).
  assert (e1 : le_at k s (S a) = le_at k t (S b)) by nia. assert (e2 : byte_at s a = byte_at t b) by nia.
  destruct i as [|i]; [rewrite !Nat.add_0_r; exact e2|]. rewrite !Nat.add_succ_r. apply (IH s t (S a) (S b)); [exact e1|lia].
Qed.

(** ** Polynomials *)

Lemma times_comm : forall a b, times a b = times b a.
Proof.
  intros a [|b]; [symmetry; apply times_0_l|]. induction b as [b IH|b IH|].
  - change (N.pos (xI b)) with (N.lxor 1 (2 * N.pos b)) at 2. rewrite times_add_l, times_1_l, times_double_l, <- IH. reflexivity.
  - change (N.pos (xO b)) with (2 * N.pos b) at 2. rewrite times_double_l, <- IH. reflexivity.
  - symmetry. apply times_1_l.
Qed.
Lemma times_add_r : forall a b c, times a (N.lxor b c) = N.lxor (times a b) (times a c).
Proof. intros a b c. rewrite times_comm, times_add_l, !(times_comm a). reflexivity. Qed.
Lemma times_assoc : forall a b c, times (times a b) c = times a (times b c).
Proof.
  intros a b [|c]; [rewrite !times_0_r; reflexivity|]. induction c as [c IH|c IH|]; [| |reflexivity].
  - change (N.lxor (times a b) (2 * times (times a b) (N.pos c)) = times a (N.lxor b (2 * times b (N.pos c)))). rewrite times_add_r, times_double_r, IH. reflexivity.
  - change (2 * times (times a b) (N.pos c) = times a (2 * times b (N.pos c))). rewrite times_double_r, IH. reflexivity.
Qed.
Lemma times_top : forall a b, a <> 0 -> b <> 0 -> N.testbit (times a b) (N.log2 a + N.log2 b) = true.
Proof.
  intros a [|b] ha hb; [congruence|]. clear hb. induction b as [b IH|b IH|].
  - change (times a (N.pos (xI b))) with (N.lxor a (2 * times a (N.pos b))). change (N.pos (xI b)) with (2 * N.pos b + 1). rewrite N.log2_succ_double by reflexivity.
    rewrite N.add_succ_r, N.lxor_spec, N.double_bits_succ, IH. rewrite N.bits_above_log2 by lia. reflexivity.
  - change (times a (N.pos (xO b))) with (2 * times a (N.pos b)). change (N.pos (xO b)) with (2 * N.pos b). rewrite N.log2_double by reflexivity.
    rewrite N.add_succ_r, N.double_bits_succ. exact IH.
  - change (times a 1) with a. change (N.log2 1) with 0. rewrite N.add_0_r. apply N.bit_log2. exact ha.
Qed.
Lemma remainder_unique : forall n m x z z', 2 ^ n <= m -> remainder n m x z -> remainder n m x z' -> z = z'.
Proof.
  intros n m x z z' hm [h [q e]] [h' [q' e']]. assert (hm0 : m <> 0) by (pose proof (N.pow_nonzero 2 n ltac:(discriminate)); lia).
  assert (d : N.lxor z z' = times (N.lxor q q') m).
  { rewrite times_add_l. assert (e2 : N.lxor z (times q m) = N.lxor z' (times q' m)) by congruence.
    apply (f_equal (fun y => N.lxor (N.lxor y z') (times q m))) in e2. revert e2. clear. intro e2.
    apply N.bits_inj. intro i. apply (f_equal (fun y => N.testbit y i)) in e2. rewrite !N.lxor_spec in *.
    destruct (N.testbit z i), (N.testbit z' i), (N.testbit (times q m) i), (N.testbit (times q' m) i); cbn in *; congruence. }
  destruct (N.eq_dec (N.lxor q q') 0) as [z0|nz].
  - rewrite z0, times_0_l in d. apply N.lxor_eq. exact d.
  - exfalso. pose proof (times_top _ m nz hm0) as t. rewrite <- d in t. rewrite (low_bits _ n) in t; [discriminate t|apply lxor_lt; assumption|].
    assert (l : N.log2 (2 ^ n) <= N.log2 m) by (apply N.log2_le_mono; exact hm). rewrite N.log2_pow2 in l by lia. lia.
Qed.
Lemma gf8_unique : forall a b c c', gf8 a b c -> gf8 a b c' -> c = c'.
Proof. intros a b c c'. apply remainder_unique. discriminate. Qed.
Lemma inverse_unique : forall x v v', v < 256 -> v' < 256 -> gf8 x v 1 -> gf8 x v' 1 -> v = v'.
Proof.
  intros x v v' hv hv' [_ [q e]] [_ [q' e']]. apply (remainder_unique 8 283 (times v' (times x v)) v v'); [discriminate| |].
  - split; [exact hv|]. exists (times v q'). rewrite <- times_assoc, (times_comm v' x), e', times_add_l, times_1_l. f_equal.
    rewrite times_comm, <- times_assoc. reflexivity.
  - split; [exact hv'|]. exists (times v' q). rewrite e, times_add_r, times_assoc. reflexivity.
Qed.
Lemma no_inverse_0 : forall v, ~ gf8 0 v 1.
Proof.
  intros v h. unfold gf8 in h. rewrite times_0_l in h. assert (g : remainder 8 283 0 0) by (split; [reflexivity|exists 0; rewrite times_0_l; reflexivity]).
  pose proof (remainder_unique 8 283 0 1 0 ltac:(discriminate) h g) as e. discriminate e.
Qed.
Lemma bits8 : forall y y', y < 256 -> y' < 256 -> (forall i, i < 8 -> N.testbit y i = N.testbit y' i) -> y = y'.
Proof.
  intros y y' h h' e. apply N.bits_inj. intro i. destruct (N.lt_ge_cases i 8) as [l|l]; [apply e, l|]. rewrite (low_bits y 8 i h l), (low_bits y' 8 i h' l). reflexivity.
Qed.
Lemma sub_unique : forall x y y', is_sub x y -> is_sub x y' -> y = y'.
Proof.
  intros x y y' [hy [v [hv [hi hb]]]] [hy' [v' [hv' [hi' hb']]]].
  assert (e : v = v').
  { destruct hi as [[-> ->]|hi]; destruct hi' as [[z ->]|hi']; [reflexivity|destruct (no_inverse_0 _ hi')|subst x; destruct (no_inverse_0 _ hi)|]. exact (inverse_unique x v v' hv hv' hi hi'). }
  subst v'. apply bits8; [exact hy|exact hy'|]. intros i l. rewrite (hb i l), (hb' i l). reflexivity.
Qed.

(** ** AES *)

Lemma at_bytes : forall s i, bytes s -> at_ s i < 256.
Proof.
  intros s i h. unfold at_. destruct (Nat.lt_ge_cases i (List.length s)) as [l|l]; [unfold bytes in h; rewrite Forall_forall in h; apply h, nth_In, l|].
  rewrite nth_overflow by exact l. reflexivity.
Qed.
Lemma list16_ext : forall l m : list N, List.length l = 16%nat -> List.length m = 16%nat -> (forall r c, (r < 4)%nat -> (c < 4)%nat -> at_ l (r + 4 * c) = at_ m (r + 4 * c)) -> l = m.
Proof.
  intros l m hl hm h. apply (nth_ext l m 0 0); [congruence|]. intros i hi. specialize (h (i mod 4)%nat (i / 4)%nat).
  pose proof (Nat.mod_upper_bound i 4 ltac:(lia)) as b. assert (d : (i / 4 < 4)%nat) by (apply Nat.div_lt_upper_bound; lia).
  specialize (h b d). replace (i mod 4 + 4 * (i / 4))%nat with i in h by (rewrite (Nat.div_mod i 4) at 1; lia). exact h.
Qed.
Lemma mixed_unique : forall s t t', mixed s t -> mixed s t' -> t = t'.
Proof.
  intros s t t' [hl h] [hl' h']. apply list16_ext; [exact hl|exact hl'|]. intros r c hr hc.
  destruct (h r c hr hc) as [u [v [hu [hv e]]]]. destruct (h' r c hr hc) as [u' [v' [hu' [hv' e']]]].
  rewrite e, e', (gf8_unique _ _ _ _ hu hu'), (gf8_unique _ _ _ _ hv hv'). reflexivity.
Qed.
Lemma mixed_bytes : forall s t, bytes s -> mixed s t -> bytes t.
Proof.
  intros s t hs [hl h]. apply Forall_forall. intros x hx. destruct (In_nth _ _ 0 hx) as [i [hi <-]]. rewrite hl in hi.
  pose proof (Nat.mod_upper_bound i 4 ltac:(lia)) as b. assert (d : (i / 4 < 4)%nat) by (apply Nat.div_lt_upper_bound; lia).
  destruct (h _ _ b d) as [u [v [[hu _] [[hv _] e]]]]. unfold at_ in e at 1. replace (i mod 4 + 4 * (i / 4))%nat with i in e by (rewrite (Nat.div_mod i 4) at 1; lia). rewrite e.
  apply lxor_byte; [apply lxor_byte; assumption|apply lxor_byte; apply at_bytes; exact hs].
Qed.
Lemma aes_unique : forall k b o o', is_aes k b o -> is_aes k b o' -> o = o'.
Proof.
  intros k b o o' [sub [w [s [h1 [[h2 h3] [h4 [h5 [h6 h7]]]]]]]] [sub' [w' [s' [h1' [[h2' h3'] [h4' [h5' [h6' h7']]]]]]]].
  assert (es : forall x, x < 256 -> sub x = sub' x) by (intros x hx; exact (sub_unique x _ _ (h1 x hx) (h1' x hx))).
  assert (eb : forall x, sub_each sub x = sub_each sub' x).
  { intro x. unfold sub_each. cbn [seq fold_left]. rewrite !es by apply word_byte_lt. reflexivity. }
  assert (ew : forall i, (i < 60)%nat -> w i = w' i).
  { intro i. induction i as [i IH] using lt_wf_ind. intro hi. destruct (Nat.lt_ge_cases i 8) as [l|l]; [rewrite h2, h2' by exact l; reflexivity|].
    rewrite h3, h3' by lia. rewrite !eb, (IH (i - 8)%nat), (IH (i - 1)%nat) by lia. reflexivity. }
  assert (ek : forall r t, (r <= 14)%nat -> with_key w r t = with_key w' r t).
  { intros r t hr. unfold with_key. apply map_ext_in. intros i hi. apply in_seq in hi. rewrite ew; [reflexivity|]. assert (i / 4 < 4)%nat by (apply Nat.div_lt_upper_bound; lia). lia. }
  assert (ess : forall t, bytes t -> sub_shift sub t = sub_shift sub' t) by (intros t ht; unfold sub_shift; apply map_ext; intro i; apply es, at_bytes, ht).
  assert (sb : forall t, bytes t -> bytes (sub_shift sub t)).
  { intros t ht. apply Forall_forall. intros x hx. apply in_map_iff in hx. destruct hx as [i [<- _]]. apply (h1 _ (at_bytes t _ ht)). }
  assert (est : forall r, (r <= 13)%nat -> s r = s' r /\ bytes (s r)).
  { induction r as [|r IH]; intro hr.
    - rewrite h4, h4', ek by lia. split; [reflexivity|]. apply with_key_bytes, byte_at_bytes.
    - destruct (IH ltac:(lia)) as [e bs]. destruct (h5 (S r) ltac:(lia)) as [t [m1 m2]]. destruct (h5' (S r) ltac:(lia)) as [t' [m1' m2']].
      rewrite Nat.sub_succ, Nat.sub_0_r in m1, m1'. rewrite <- e, <- ess in m1' by exact bs. rewrite (mixed_unique _ _ _ m1' m1) in m2'. rewrite m2, m2', ek by lia.
      split; [reflexivity|]. apply with_key_bytes, (mixed_bytes _ _ (sb _ bs) m1). }
  apply string_ext; [congruence|]. rewrite h6. intros i hi. destruct (est 13%nat ltac:(lia)) as [e bs]. rewrite e in h7, bs. rewrite <- e in h7 at 1.
  assert (m : map (byte_at o) (seq 0 16) = map (byte_at o') (seq 0 16)) by (rewrite h7, h7', ek, e, ess by (exact bs || lia); reflexivity).
  apply (proj1 map_ext_in_iff m). apply in_seq. lia.
Qed.

(** ** GCM *)

Lemma mirrored_unique : forall x y y', mirrored x y -> mirrored x y' -> y = y'.
Proof.
  intros x y y' [h1 h2] [h1' h2']. apply N.bits_inj. intro i. destruct (N.lt_ge_cases i 128) as [l|l]; [rewrite h2, h2' by exact l; reflexivity|].
  rewrite (low_bits y 128 i h1 l), (low_bits y' 128 i h1' l). reflexivity.
Qed.
Lemma mirrored_back : forall x x' y, x < 2 ^ 128 -> x' < 2 ^ 128 -> mirrored x y -> mirrored x' y -> x = x'.
Proof.
  intros x x' y hx hx' [_ h] [_ h']. apply N.bits_inj. intro i. destruct (N.lt_ge_cases i 128) as [l|l].
  - specialize (h (127 - i) ltac:(lia)). specialize (h' (127 - i) ltac:(lia)). replace (127 - (127 - i)) with i in h, h' by lia. congruence.
  - rewrite (low_bits x 128 i hx l), (low_bits x' 128 i hx' l). reflexivity.
Qed.
Lemma gf128_unique : forall a b c c', gf128 a b c -> gf128 a b c' -> c = c'.
Proof.
  intros a b c c' [x [y [z [h [hx [hy [hz r]]]]]]] [x' [y' [z' [h' [hx' [hy' [hz' r']]]]]]].
  rewrite (mirrored_unique _ _ _ hx' hx), (mirrored_unique _ _ _ hy' hy) in r'.
  assert (e : z' = z) by (apply (remainder_unique 128 (2 ^ 128 + 135) (times x y)); [discriminate|exact r'|exact r]). subst z'. exact (mirrored_back c c' z h h' hz hz').
Qed.
Lemma ghash_unique : forall h s y y', is_ghash h s y -> is_ghash h s y' -> y = y'.
Proof.
  intros h s y y' [n [v [hl [h0 [hs ->]]]]] [n' [v' [hl' [h0' [hs' ->]]]]]. assert (n' = n) by lia. subst n'.
  assert (e : forall i, (i <= n)%nat -> v i = v' i).
  { induction i as [|i IH]; intro hi; [congruence|]. pose proof (hs i ltac:(lia)) as g. pose proof (hs' i ltac:(lia)) as g'. rewrite <- IH in g' by lia. exact (gf128_unique _ _ _ _ g g'). }
  apply e. lia.
Qed.
Lemma padded16_unique : forall s t t', padded16 s t -> padded16 s t' -> t = t'.
Proof.
  intros s t t' [z [n [h1 [-> h3]]]] [z' [n' [h1' [-> h3']]]]. rewrite slen_app, <- zeros_is, zeros_len in h3, h3'. assert (z = z') by lia. congruence.
Qed.
Lemma zero_bytes_length : forall n, String.length (zero_bytes n) = n.
Proof. intro n. rewrite <- zeros_is. apply zeros_len. Qed.
Lemma gcm_unique : forall k n a p o o', String.length n = 12%nat -> is_gcm k n a p o -> is_gcm k n a p o' -> o = o'.
Proof.
  intros k n a p o o' hn [E [y [a16 [c16 [h1 [h2 [h3 [h4 [h5 [h6 h7]]]]]]]]]] [E' [y' [a16' [c16' [h1' [h2' [h3' [h4' [h5' [h6' h7']]]]]]]]]].
  assert (e : forall b, String.length b = 16%nat -> E b = E' b) by (intros b hb; exact (aes_unique k b _ _ (h1 b hb) (h1' b hb))).
  assert (eb : forall x, E (n ++ big_endian 4 x)%string = E' (n ++ big_endian 4 x)%string) by (intro x; apply e; rewrite slen_app, big_endian_length, hn; reflexivity).
  assert (ez : E (zero_bytes 16) = E' (zero_bytes 16)) by (apply e; apply zero_bytes_length).
  assert (ec : forall j, (j < String.length p)%nat -> byte_at o j = byte_at o' j) by (intros j hj; rewrite (h6 j hj), (h6' j hj), eb; reflexivity).
  assert (es : substring 0 (String.length p) o = substring 0 (String.length p) o').
  { rewrite !substring_take. apply string_ext; [rewrite !take_length by lia; reflexivity|]. rewrite take_length by lia. intros i hi. rewrite !byte_at_take by exact hi. apply ec, hi. }
  rewrite es in h3. rewrite (padded16_unique _ _ _ h2 h2'), (padded16_unique _ _ _ h3 h3'), ez in h4. pose proof (ghash_unique _ _ _ _ h4 h4') as ey. subst y'.
  assert (et : be_at 16 o (String.length p) = be_at 16 o' (String.length p)) by (rewrite h7, h7', eb; reflexivity).
  apply string_ext; [congruence|]. rewrite h5. intros i hi. destruct (Nat.lt_ge_cases i (String.length p)) as [l|l]; [apply ec, l|].
  replace i with (String.length p + (i - String.length p))%nat by lia. apply (be_at_inj 16 o o' _ _ et). lia.
Qed.

(** ** XChaCha20-Poly1305 *)

Lemma block_unique : forall k m o o', is_chacha_block k m o -> is_chacha_block k m o' -> o = o'.
Proof.
  intros k m o o' [h1 h2] [h1' h2']. apply string_ext; [congruence|]. rewrite h1. intros i hi.
  assert (d : (i / 4 < 16)%nat) by (apply Nat.div_lt_upper_bound; lia). rewrite (Nat.div_mod i 4) by lia. apply (le_at_inj 4).
  - rewrite h2, h2' by exact d. reflexivity.
  - apply Nat.mod_upper_bound. lia.
Qed.
Lemma hchacha_unique : forall k m o o', is_hchacha k m o -> is_hchacha k m o' -> o = o'.
Proof.
  intros k m o o' [h1 h2] [h1' h2']. apply string_ext; [congruence|]. rewrite h1. intros i hi.
  assert (d : (i / 4 < 8)%nat) by (apply Nat.div_lt_upper_bound; lia). rewrite (Nat.div_mod i 4) by lia. apply (le_at_inj 4); [|apply Nat.mod_upper_bound; lia].
  destruct (Nat.lt_ge_cases (i / 4) 4) as [l|l].
  - rewrite (proj1 (h2 _ l)), (proj1 (h2' _ l)). reflexivity.
  - replace (4 * (i / 4))%nat with (16 + 4 * (i / 4 - 4))%nat by lia. rewrite (proj2 (h2 (i / 4 - 4)%nat ltac:(lia))), (proj2 (h2' (i / 4 - 4)%nat ltac:(lia))). reflexivity.
Qed.
Lemma poly_unique : forall k m o o', is_poly1305 k m o -> is_poly1305 k m o' -> o = o'.
Proof.
  intros k m o o' [r [b [h1 [h2 [_ [h4 ->]]]]]] [r' [b' [h1' [h2' [_ [h4' ->]]]]]].
  assert (er : r = r') by (apply N.bits_inj; intro i; rewrite h1, h1'; reflexivity).
  assert (eb : b = b') by (apply (nth_ext b b' 0 0); [congruence|]; intros i hi; rewrite h4 by exact hi; rewrite h4' by congruence; reflexivity).
  rewrite er, eb. reflexivity.
Qed.
Lemma xc_unique : forall k n a p o o', is_xc20p k n a p o -> is_xc20p k n a p o' -> o = o'.
Proof.
  intros k n a p o o' [inn [a16 [c16 [blk [h1 [h2 [h3 [h4 [h5 [h6 h7]]]]]]]]]] [inn' [a16' [c16' [blk' [h1' [h2' [h3' [h4' [h5' [h6' h7']]]]]]]]]].
  pose proof (hchacha_unique _ _ _ _ h1 h1') as ei. subst inn'.
  assert (eb : forall i, (i <= String.length p / 64 + 1)%nat -> blk i = blk' i) by (intros i hi; exact (block_unique _ _ _ _ (h2 i hi) (h2' i hi))).
  assert (ec : forall j, (j < String.length p)%nat -> byte_at o j = byte_at o' j).
  { intros j hj. rewrite (h6 j hj), (h6' j hj), eb; [reflexivity|]. pose proof (Nat.div_le_mono j (String.length p) 64 ltac:(lia) ltac:(lia)). lia. }
  assert (es : substring 0 (String.length p) o = substring 0 (String.length p) o').
  { rewrite !substring_take. apply string_ext; [rewrite !take_length by lia; reflexivity|]. rewrite take_length by lia. intros i hi. rewrite !byte_at_take by exact hi. apply ec, hi. }
  cbv zeta in h4. rewrite es in h4. rewrite (padded16_unique _ _ _ h3 h3'), (padded16_unique _ _ _ h4 h4'), (eb 0%nat) in h7 by lia. pose proof (poly_unique _ _ _ _ h7 h7') as et.
  rewrite <- (take_drop (String.length p) o), <- (take_drop (String.length p) o'). f_equal; [rewrite <- !substring_take; exact es|].
  rewrite !substring_drop in et. rewrite !take_all in et by (rewrite drop_length; lia). exact et.
Qed.

(** ** SHA-2 *)

Lemma sha2_block_unique : forall P K H M o o', sha2_block P K H M o -> sha2_block P K H M o' -> o = o'.
Proof.
  intros P K H M o o' [W [st [h1 [h2 [h3 [h4 ->]]]]]] [W' [st' [h1' [h2' [h3' [h4' ->]]]]]].
  assert (eW : forall t, (t < nr P)%nat -> W t = W' t).
  { intro t. induction t as [t IH] using lt_wf_ind. intro ht. destruct (Nat.lt_ge_cases t 16) as [l|l]; [rewrite h1, h1' by exact l; reflexivity|].
    rewrite h2, h2' by lia. rewrite (IH (t - 2)%nat), (IH (t - 7)%nat), (IH (t - 15)%nat), (IH (t - 16)%nat) by lia. reflexivity. }
  assert (es : forall t, (t <= nr P)%nat -> st t = st' t).
  { induction t as [|t IH]; intro ht; [congruence|]. rewrite h4, h4', IH, eW by lia. reflexivity. }
  rewrite (es (nr P)) by lia. reflexivity.
Qed.
Lemma sha2_unique : forall P K H0 s o o', (0 < wy P)%nat -> sha2_hash P K H0 s o -> sha2_hash P K H0 s o' -> o = o'.
Proof.
  intros P K H0 s o o' hw [n [pd [H [[z [hz ->]] [h2 [h3 [h4 ->]]]]]]] [n' [pd' [H' [[z' [hz' ->]] [h2' [h3' [h4' ->]]]]]]].
  rewrite !slen_app, zero_bytes_length, big_endian_length in h2, h2'. cbn [byte String.length] in h2, h2'.
  assert (en : n = n') by (set (b := (16 * wy P)%nat) in *; nia). subst n'. assert (ez : z = z') by lia. subst z'.
  assert (e : forall i, (i <= n)%nat -> H i = H' i).
  { induction i as [|i IH]; intro hi; [congruence|]. pose proof (h4 i ltac:(lia)) as g. pose proof (h4' i ltac:(lia)) as g'. rewrite <- IH in g' by lia. exact (sha2_block_unique _ _ _ _ _ _ g g'). }
  rewrite e by lia. reflexivity.
Qed.
