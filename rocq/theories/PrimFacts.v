(** SHA-256 and SHA-512 of the model against FIPS 180-4. Used by C71. *)

From Coq Require Import Ascii String Arith NArith List Bool Lia.
From Verif Require Import Bytes BytesFacts ChaCha Sha256 Sha512 SpecPrim.
Import ListNotations.
Local Open Scope N_scope.

(** ** Words *)

Lemma low_bits : forall a k i, a < 2 ^ k -> k <= i -> N.testbit a i = false.
Proof. intros a k i HA HI. rewrite <- (N.mod_small a (2 ^ k) HA). now apply N.mod_pow2_bits_high. Qed.
Lemma lor_add : forall a b k, a < 2 ^ k -> N.lor a (b * 2 ^ k) = a + b * 2 ^ k.
Proof.
  intros a b k HA. rewrite <- N.shiftl_mul_pow2.
  assert (HL : N.land a (N.shiftl b k) = 0).
  { apply N.bits_inj. intros i. rewrite N.land_spec, N.bits_0. destruct (N.lt_ge_cases i k) as [H|H].
    - rewrite N.shiftl_spec_low by exact H. apply andb_false_r.
    - rewrite (low_bits a k i HA H). reflexivity. }
  rewrite <- N.lxor_lor by exact HL. symmetry. now apply N.add_nocarry_lxor.
Qed.
Lemma pow_split : forall w n, n <= w -> 2 ^ w = 2 ^ (w - n) * 2 ^ n.
Proof. intros w n H. rewrite <- N.pow_add_r. f_equal. lia. Qed.
Lemma rotate_is : forall w n x, n <= w -> x < 2 ^ w -> N.lor (N.shiftr x n) (N.shiftl x (w - n) mod 2 ^ w) = rotate w n x.
Proof.
  intros w n x HN HX. rewrite N.shiftr_div_pow2, N.shiftl_mul_pow2. unfold rotate.
  assert (HP : 2 ^ n <> 0) by now apply N.pow_nonzero. assert (HQ : 2 ^ (w - n) <> 0) by now apply N.pow_nonzero.
  assert (HD : x / 2 ^ n < 2 ^ (w - n)) by (apply N.div_lt_upper_bound; [exact HP|]; rewrite N.mul_comm, <- pow_split by exact HN; exact HX).
  rewrite (pow_split w n HN). rewrite (N.mul_comm (2 ^ (w - n)) (2 ^ n)). rewrite N.mul_mod_distr_r by assumption. now apply lor_add.
Qed.
Lemma lxor_lt : forall w a b, a < 2 ^ w -> b < 2 ^ w -> N.lxor a b < 2 ^ w.
Proof.
  intros w a b HA HB. assert (E : N.lxor a b = N.lxor a b mod 2 ^ w).
  { apply N.bits_inj. intros i. destruct (N.lt_ge_cases i w) as [H|H].
    - now rewrite N.mod_pow2_bits_low.
    - rewrite N.mod_pow2_bits_high by exact H. rewrite N.lxor_spec. now rewrite (low_bits a w i HA H), (low_bits b w i HB H). }
  rewrite E. apply N.mod_lt. now apply N.pow_nonzero.
Qed.
Lemma w32_mod : forall x, w32 x = x mod 2 ^ 32.
Proof. intros x. unfold w32. change 4294967295 with (N.ones 32). apply N.land_ones. Qed.
Lemma add32_mod : forall x y, add32 x y = (x + y) mod 2 ^ 32.
Proof. intros x y. apply w32_mod. Qed.
Lemma add64_mod : forall x y, add64 x y = (x + y) mod 2 ^ 64.
Proof. reflexivity. Qed.
Lemma rotr32_is : forall n x, n <= 32 -> x < 2 ^ 32 -> rotr32 n x = rotate 32 n x.
Proof. intros n x HN HX. unfold rotr32. rewrite w32_mod. now apply rotate_is. Qed.
Lemma rotr64_is : forall n x, n <= 64 -> x < 2 ^ 64 -> rotr64 n x = rotate 64 n x.
Proof. intros n x HN HX. unfold rotr64. change (w64 (N.shiftl x (64 - n))) with (N.shiftl x (64 - n) mod 2 ^ 64). now apply rotate_is. Qed.
Lemma choose_is : forall w e f g, g < 2 ^ w -> N.lxor (N.land e f) (N.land (N.lxor e (N.ones w)) g) = choose e f g.
Proof.
  intros w e f g HG. unfold choose. apply N.bits_inj. intros i. rewrite N.lxor_spec, !N.land_spec, N.lxor_spec, N.lor_spec, N.land_spec, N.ldiff_spec.
  destruct (N.lt_ge_cases i w) as [H|H].
  - rewrite N.ones_spec_low by exact H. destruct (N.testbit e i), (N.testbit f i), (N.testbit g i); reflexivity.
  - rewrite (low_bits g w i HG H). destruct (N.testbit e i), (N.testbit f i), (N.testbit (N.ones w) i); reflexivity.
Qed.
Lemma majority_is : forall a b c, N.lxor (N.lxor (N.land a b) (N.land a c)) (N.land b c) = majority a b c.
Proof.
  intros a b c. unfold majority. apply N.bits_inj. intros i. rewrite !N.lxor_spec, !N.lor_spec, !N.land_spec.
  destruct (N.testbit a i), (N.testbit b i), (N.testbit c i); reflexivity.
Qed.

(** ** One block, for both word sizes *)

Definition word (w x : N) : Prop := x < 2 ^ w.
Lemma mod_word : forall w x, word w (x mod 2 ^ w).
Proof. intros w x. apply N.mod_lt. now apply N.pow_nonzero. Qed.
(** The message schedule. *)
Definition gen_step (F : N -> N -> N -> N -> N) (l : list N) : list N := F (nth 1 l 0) (nth 6 l 0) (nth 14 l 0) (nth 15 l 0) :: l.
Lemma sched_gen : forall F w block, (forall a b c d, word w (F a b c d)) -> List.length block = 16%nat -> Forall (word w) block ->
  forall k, let S := rev (Nat.iter k (gen_step F) (rev block)) in
  List.length S = (16 + k)%nat /\ Forall (word w) S /\ (forall t, (t < 16)%nat -> nth t S 0 = nth t block 0) /\
  (forall t, (16 <= t < 16 + k)%nat -> nth t S 0 = F (nth (t - 2) S 0) (nth (t - 7) S 0) (nth (t - 15) S 0) (nth (t - 16) S 0)).
Proof.
  intros F w block HF HL HW k. induction k as [|k IH].
  - change (Nat.iter 0 (gen_step F) (rev block)) with (rev block). rewrite rev_involutive. cbv zeta. split; [lia|]. split; [exact HW|]. split; [reflexivity|]. intros t Ht. lia.
  - change (Nat.iter (S k) (gen_step F) (rev block)) with (gen_step F (Nat.iter k (gen_step F) (rev block))). set (L := Nat.iter k (gen_step F) (rev block)) in *. cbv zeta in IH |- *. unfold gen_step. cbn [rev]. remember (rev L) as S eqn:ES.
    assert (EL : L = rev S) by (rewrite ES; symmetry; apply rev_involutive). destruct IH as [I1 [I2 [I3 I4]]].
    assert (G : forall i, (i < 16)%nat -> nth i L 0 = nth (16 + k - Datatypes.S i) S 0) by (intros i Hi; rewrite EL, rev_nth by lia; now rewrite I1).
    rewrite !G by lia. rewrite app_length. cbn [List.length]. split; [lia|]. split; [apply Forall_app; split; [exact I2|constructor; [apply HF|constructor]]|].
    split; [intros t Ht; rewrite app_nth1 by lia; now apply I3|].
    intros t Ht. destruct (Nat.eq_dec t (16 + k)) as [->|HN].
    + rewrite (app_nth2 S) by lia. rewrite I1, Nat.sub_diag. cbn [nth]. rewrite !app_nth1 by lia. f_equal; f_equal; lia.
    + rewrite !app_nth1 by lia. apply I4. lia.
Qed.
Lemma eight : forall (st : list N), List.length st = 8%nat -> exists a b c d e f g h, st = [a; b; c; d; e; f; g; h].
Proof.
  intros st H. destruct st as [|a [|b [|c [|d [|e [|f [|g [|h [|x st]]]]]]]]]; try discriminate H. exists a, b, c, d, e, f, g, h. reflexivity.
Qed.
Lemma words_eight : forall w a b c d e f g h, Forall (word w) [a; b; c; d; e; f; g; h] ->
  word w a /\ word w b /\ word w c /\ word w d /\ word w e /\ word w f /\ word w g /\ word w h.
Proof.
  intros w a b c d e f g h H. rewrite Forall_forall in H. repeat split; apply H; cbn [In]; tauto.
Qed.
Lemma step_words : forall P k w st, List.length st = 8%nat -> Forall (word (wb P)) st ->
  List.length (sha2_step P k w st) = 8%nat /\ Forall (word (wb P)) (sha2_step P k w st).
Proof.
  intros P k w st HL HW. destruct (eight st HL) as [a [b [c [d [e [f [g [h ->]]]]]]]]. apply words_eight in HW. destruct HW as [Ha [Hb [Hc [Hd [He [Hf [Hg Hh]]]]]]].
  unfold sha2_step. cbv zeta. split; [reflexivity|]. repeat (apply Forall_cons; [first [assumption|apply mod_word]|]). apply Forall_nil.
Qed.
Lemma firstn_next : forall A (d : A) l t, (t < List.length l)%nat -> firstn (S t) l = (firstn t l ++ [nth t l d])%list.
Proof.
  intros A d l. induction l as [|x l IH]; intros t Ht; [cbn in Ht; lia|]. destruct t as [|t]; [reflexivity|]. cbn [firstn nth app]. f_equal. apply IH. cbn in Ht. lia.
Qed.
Lemma block_gen : forall P K F rnd H M,
  List.length K = nr P -> (nr P = 16 + (nr P - 16))%nat ->
  (forall a b c d, word (wb P) a -> word (wb P) b -> word (wb P) c -> word (wb P) d ->
    F a b c d = (small_sigma (wb P) (small1 P) a + b + small_sigma (wb P) (small0 P) c + d) mod 2 ^ wb P) ->
  (forall a b c d, word (wb P) (F a b c d)) ->
  (forall st k w, List.length st = 8%nat -> Forall (word (wb P)) st -> word (wb P) w -> rnd st (k, w) = sha2_step P k w st) ->
  List.length H = 8%nat -> Forall (word (wb P)) H -> List.length M = 16%nat -> Forall (word (wb P)) M ->
  let S := rev (Nat.iter (nr P - 16) (gen_step F) (rev M)) in
  let H' := map (fun xy => (fst xy + snd xy) mod 2 ^ wb P) (combine H (fold_left rnd (combine K S) H)) in
  sha2_block P K H M H' /\ List.length H' = 8%nat /\ Forall (word (wb P)) H'.
Proof.
  intros P K F rnd H M HK HN HF HFW HR LH WH LM WM S H'. destruct (sched_gen F (wb P) M HFW LM WM (nr P - 16)) as [S1 [S2 [S3 S4]]]. fold S in S1, S2, S3, S4.
  rewrite <- HN in S1, S4. set (st := fun t => fold_left rnd (firstn t (combine K S)) H).
  assert (LC : List.length (combine K S) = nr P) by (rewrite combine_length; lia).
  assert (WS : forall t, word (wb P) (nth t S 0)).
  { intros t. destruct (Nat.lt_ge_cases t (List.length S)) as [L|L]; [|rewrite nth_overflow by exact L; unfold word; pose proof (N.pow_nonzero 2 (wb P)); lia].
    rewrite Forall_forall in S2. apply S2. now apply nth_In. }
  assert (ST : forall t, (t <= nr P)%nat -> List.length (st t) = 8%nat /\ Forall (word (wb P)) (st t) /\ (forall u, (u < t)%nat -> st (Datatypes.S u) = sha2_step P (nth u K 0) (nth u S 0) (st u))).
  { induction t as [|t IH]; intros Ht; [split; [exact LH|split; [exact WH|]]; intros u Hu; lia|].
    destruct IH as [I1 [I2 I3]]; [lia|].
    assert (E : st (Datatypes.S t) = sha2_step P (nth t K 0) (nth t S 0) (st t)).
    { unfold st at 1. rewrite (firstn_next _ (0, 0)) by lia. rewrite fold_left_app. cbn [fold_left]. fold (st t). rewrite combine_nth by lia. apply HR; auto. }
    destruct (step_words P (nth t K 0) (nth t S 0) (st t) I1 I2) as [E1 E2]. rewrite E. split; [exact E1|]. split; [exact E2|].
    intros u Hu. destruct (Nat.eq_dec u t) as [->|HU]; [exact E|]. apply I3. lia. }
  destruct (ST (nr P) (Nat.le_refl _)) as [T1 [T2 T3]].
  assert (EF : fold_left rnd (combine K S) H = st (nr P)) by (unfold st; rewrite <- LC, firstn_all; reflexivity).
  split; [|split].
  - exists (fun t => nth t S 0), st. split; [exact S3|]. split.
    + intros t Ht. rewrite (S4 t Ht). apply HF; apply WS.
    + split; [reflexivity|]. split; [exact T3|]. unfold H'. now rewrite EF.
  - unfold H'. rewrite EF, map_length, combine_length. lia.
  - unfold H'. apply Forall_forall. intros x HX. apply in_map_iff in HX. destruct HX as [xy [<- _]]. apply mod_word.
Qed.
Lemma k256_length : List.length k256 = 64%nat.
Proof. reflexivity. Qed.
Lemma k512_length : List.length k512 = 80%nat.
Proof. reflexivity. Qed.
Lemma mod_sum : forall m a b, m <> 0 -> (a mod m + b mod m) mod m = (a + b) mod m.
Proof. intros m a b H. now rewrite <- N.add_mod. Qed.
Lemma big_is32 : forall a b c x, a <= 32 -> b <= 32 -> c <= 32 -> word 32 x -> N.lxor (N.lxor (rotr32 a x) (rotr32 b x)) (rotr32 c x) = big_sigma 32 (a, b, c) x.
Proof. intros a b c x HA HB HC HX. unfold big_sigma. now rewrite !rotr32_is. Qed.
Lemma small_is32 : forall a b c x, a <= 32 -> b <= 32 -> word 32 x -> N.lxor (N.lxor (rotr32 a x) (rotr32 b x)) (N.shiftr x c) = small_sigma 32 (a, b, c) x.
Proof. intros a b c x HA HB HX. unfold small_sigma. now rewrite !rotr32_is, N.shiftr_div_pow2. Qed.
Lemma big_is64 : forall a b c x, a <= 64 -> b <= 64 -> c <= 64 -> word 64 x -> N.lxor (N.lxor (rotr64 a x) (rotr64 b x)) (rotr64 c x) = big_sigma 64 (a, b, c) x.
Proof. intros a b c x HA HB HC HX. unfold big_sigma. now rewrite !rotr64_is. Qed.
Lemma small_is64 : forall a b c x, a <= 64 -> b <= 64 -> word 64 x -> N.lxor (N.lxor (rotr64 a x) (rotr64 b x)) (N.shiftr x c) = small_sigma 64 (a, b, c) x.
Proof. intros a b c x HA HB HX. unfold small_sigma. now rewrite !rotr64_is, N.shiftr_div_pow2. Qed.
Lemma sum_t1 : forall m h s c k w, m <> 0 -> (((h + s) mod m + (c + k) mod m) mod m + w) mod m = (h + s + c + k + w) mod m.
Proof. intros m h s c k w H. rewrite <- (N.add_mod (h + s) (c + k)) by exact H. rewrite N.add_mod_idemp_l by exact H. f_equal. lia. Qed.
Lemma sum_four : forall m a b c d, m <> 0 -> ((a + b) mod m + (c + d) mod m) mod m = (d + c + b + a) mod m.
Proof. intros m a b c d H. rewrite <- N.add_mod by exact H. f_equal. lia. Qed.
Lemma round256_is : forall st k w, List.length st = 8%nat -> Forall (word 32) st -> round256 st (k, w) = sha2_step sha2_256 k w st.
Proof.
  intros st k w HL HW. destruct (eight st HL) as [a [b [c [d [e [f [g [h ->]]]]]]]]. apply words_eight in HW. destruct HW as [Ha [Hb [Hc [Hd [He [Hf [Hg Hh]]]]]]].
  unfold round256, sha2_step. cbv zeta. change (wb sha2_256) with 32. change (big0 sha2_256) with (2, 13, 22). change (big1 sha2_256) with (6, 11, 25). cbn [fst snd].
  rewrite !big_is32 by (assumption || discriminate). change 4294967295 with (N.ones 32). rewrite (choose_is 32) by exact Hg. rewrite majority_is, !add32_mod.
  assert (HM : 2 ^ 32 <> 0) by discriminate. generalize dependent (2 ^ 32). intros m. intros.
  rewrite !sum_t1 by exact HM. rewrite <- N.add_mod by exact HM. rewrite (N.add_mod_idemp_r d) by exact HM. reflexivity.
Qed.
Lemma round512_is : forall st k w, List.length st = 8%nat -> Forall (word 64) st -> round512 st (k, w) = sha2_step sha2_512 k w st.
Proof.
  intros st k w HL HW. destruct (eight st HL) as [a [b [c [d [e [f [g [h ->]]]]]]]]. apply words_eight in HW. destruct HW as [Ha [Hb [Hc [Hd [He [Hf [Hg Hh]]]]]]].
  unfold round512, sha2_step. cbv zeta. change (wb sha2_512) with 64. change (big0 sha2_512) with (28, 34, 39). change (big1 sha2_512) with (14, 18, 41). cbn [fst snd].
  rewrite !big_is64 by (assumption || discriminate). change 18446744073709551615 with (N.ones 64). rewrite (choose_is 64) by exact Hg. rewrite majority_is, !add64_mod.
  assert (HM : 2 ^ 64 <> 0) by discriminate. generalize dependent (2 ^ 64). intros m. intros.
  rewrite !sum_t1 by exact HM. rewrite <- N.add_mod by exact HM. rewrite (N.add_mod_idemp_r d) by exact HM. reflexivity.
Qed.
Definition sched_f256 (w2 w7 w15 w16 : N) : N :=
  add32 (add32 w16 (N.lxor (N.lxor (rotr32 7 w15) (rotr32 18 w15)) (N.shiftr w15 3)))
    (add32 w7 (N.lxor (N.lxor (rotr32 17 w2) (rotr32 19 w2)) (N.shiftr w2 10))).
Definition sched_f512 (w2 w7 w15 w16 : N) : N :=
  add64 (add64 w16 (N.lxor (N.lxor (rotr64 1 w15) (rotr64 8 w15)) (N.shiftr w15 7)))
    (add64 w7 (N.lxor (N.lxor (rotr64 19 w2) (rotr64 61 w2)) (N.shiftr w2 6))).
Lemma map_add_ext : forall l m, map (fun ab => add32 (fst ab) (snd ab)) (combine l m) = map (fun xy => (fst xy + snd xy) mod 2 ^ 32) (combine l m).
Proof. intros l m. apply map_ext. intros x. apply add32_mod. Qed.
Lemma compress_is : forall H M, List.length H = 8%nat -> Forall (word 32) H -> List.length M = 16%nat -> Forall (word 32) M ->
  sha2_block sha2_256 k256 H M (compress H M) /\ List.length (compress H M) = 8%nat /\ Forall (word 32) (compress H M).
Proof.
  intros H M LH WH LM WM. unfold compress, schedule. rewrite map_add_ext.
  apply (block_gen sha2_256 k256 sched_f256 round256 H M); try assumption; try reflexivity.
  - intros a b c d Ha Hb Hc Hd. unfold sched_f256. rewrite !small_is32 by (assumption || discriminate). rewrite !add32_mod.
    change (wb sha2_256) with 32. change (small0 sha2_256) with (7, 18, 3). change (small1 sha2_256) with (17, 19, 10).
    assert (HM : 2 ^ 32 <> 0) by discriminate. rewrite sum_four by exact HM. reflexivity.
  - intros a b c d. unfold sched_f256. rewrite add32_mod. apply mod_word.
  - intros st k w HL HW _. now apply round256_is.
Qed.
Lemma compress512_is : forall H M, List.length H = 8%nat -> Forall (word 64) H -> List.length M = 16%nat -> Forall (word 64) M ->
  sha2_block sha2_512 k512 H M (compress512 H M) /\ List.length (compress512 H M) = 8%nat /\ Forall (word 64) (compress512 H M).
Proof.
  intros H M LH WH LM WM. unfold compress512, schedule512.
  apply (block_gen sha2_512 k512 sched_f512 round512 H M); try assumption; try reflexivity.
  - intros a b c d Ha Hb Hc Hd. unfold sched_f512. rewrite !small_is64 by (assumption || discriminate). rewrite !add64_mod.
    change (wb sha2_512) with 64. change (small0 sha2_512) with (1, 8, 7). change (small1 sha2_512) with (19, 61, 6).
    assert (HM : 2 ^ 64 <> 0) by discriminate. rewrite sum_four by exact HM. reflexivity.
  - intros a b c d. unfold sched_f512. rewrite add64_mod. apply mod_word.
  - intros st k w HL HW _. now apply round512_is.
Qed.

(** ** Bytes and words *)

Lemma byte_code : forall s i c, String.get i s = Some c -> byte_at s i = code c.
Proof. intros s i c H. unfold byte_at. now rewrite H. Qed.
Lemma byte_bound : forall s i, byte_at s i < 256.
Proof. intros s i. unfold byte_at. destruct (String.get i s) as [c|]; [apply N_ascii_bounded|reflexivity]. Qed.
Lemma be_at_bound : forall k s off, be_at k s off < 256 ^ N.of_nat k.
Proof.
  intros k s off. unfold be_at. rewrite <- fold_left_rev_right. induction k as [|k IH]; [reflexivity|].
  rewrite seq_S, rev_app_distr. cbn [rev app fold_right Nat.add]. pose proof (byte_bound s (off + k)) as HB. rewrite Nat2N.inj_succ, N.pow_succ_r'. nia.
Qed.
Lemma be_at_shift : forall k c s off, be_at k (String c s) (S off) = be_at k s off.
Proof.
  intros k c s off. unfold be_at.
  assert (H : forall l a, fold_left (fun a i => a * 256 + byte_at (String c s) (S off + i)) l a = fold_left (fun a i => a * 256 + byte_at s (off + i)) l a); [|apply H].
  induction l as [|i l IH]; intros a; [reflexivity|]. cbn [fold_left]. rewrite IH. reflexivity.
Qed.
Lemma be_word_at : forall a b c d s, be_at 4 (String a (String b (String c (String d s)))) 0 = be_word a b c d.
Proof. intros a b c d s. unfold be_at, be_word, code. cbn [seq fold_left Nat.add byte_at String.get]. unfold byte_at. cbn [String.get]. lia. Qed.
Lemma words_at : forall s j, (4 * j + 4 <= String.length s)%nat -> nth j (words s) 0 = be_at 4 s (4 * j).
Proof.
  intros s j. revert s. induction j as [|j IH]; intros s H.
  - destruct s as [|a [|b [|c [|d s]]]]; cbn [String.length] in H; try lia. cbn [words nth]. symmetry. apply be_word_at.
  - destruct s as [|a [|b [|c [|d s]]]]; cbn [String.length] in H; try lia. cbn [words nth]. rewrite IH by lia.
    replace (4 * S j)%nat with (S (S (S (S (4 * j))))) by lia. now rewrite !be_at_shift.
Qed.
Lemma words_length : forall n s, String.length s = (4 * n)%nat -> List.length (words s) = n.
Proof.
  induction n as [|n IH]; intros s H; [destruct s; [reflexivity|discriminate]|].
  destruct s as [|a [|b [|c [|d s]]]]; cbn [String.length] in H; try lia. cbn [words List.length]. f_equal. apply IH. lia.
Qed.
Lemma be_at_split : forall j k s off, be_at (j + k) s off = be_at j s off * 256 ^ N.of_nat k + be_at k s (off + j).
Proof.
  intros j k s off. unfold be_at. rewrite seq_app, fold_left_app. cbn [Nat.add]. set (x := fold_left _ (seq 0 j) 0). clearbody x.
  rewrite <- !fold_left_rev_right. revert x. induction k as [|k IH]; intros x.
  - cbn [seq rev fold_right]. change (256 ^ N.of_nat 0) with 1. lia.
  - rewrite !seq_S, !rev_app_distr. cbn [rev app fold_right Nat.add]. rewrite IH. rewrite Nat2N.inj_succ, N.pow_succ_r'.
    replace (off + (j + k))%nat with (off + j + k)%nat by lia. lia.
Qed.
Lemma words64_at : forall l j, (2 * j + 2 <= List.length l)%nat -> nth j (words64 l) 0 = nth (2 * j) l 0 * 4294967296 + nth (2 * j + 1) l 0.
Proof.
  intros l j. revert l. induction j as [|j IH]; intros l H.
  - destruct l as [|a [|b l]]; cbn [List.length] in H; try lia. reflexivity.
  - destruct l as [|a [|b l]]; cbn [List.length] in H; try lia. cbn [words64 nth]. rewrite IH by lia.
    replace (2 * S j)%nat with (S (S (2 * j))) by lia. replace (2 * S j + 1)%nat with (S (S (2 * j + 1))) by lia. reflexivity.
Qed.
Lemma words64_length : forall n l, List.length l = (2 * n)%nat -> List.length (words64 l) = n.
Proof.
  induction n as [|n IH]; intros l H; [destruct l; [reflexivity|discriminate]|].
  destruct l as [|a [|b l]]; cbn [List.length] in H; try lia. cbn [words64 List.length]. f_equal. apply IH. lia.
Qed.
Lemma skip_skip : forall (A : Type) (l : list A) a b, skipn a (skipn b l) = skipn (b + a) l.
Proof.
  intros A l a b. revert l. induction b as [|b IH]; intros l; [reflexivity|]. destruct l as [|x l]; [now rewrite !skipn_nil|]. cbn [skipn Nat.add]. apply IH.
Qed.
Lemma blocks_at : forall n ws i, (i < n)%nat -> nth i (blocks n ws) [] = firstn 16 (skipn (16 * i) ws).
Proof.
  induction n as [|n IH]; intros ws i H; [lia|]. destruct i as [|i]; [reflexivity|]. cbn [blocks nth]. rewrite IH by lia.
  f_equal. rewrite skip_skip. f_equal. lia.
Qed.
Lemma blocks_length : forall n ws, List.length (blocks n ws) = n.
Proof. induction n as [|n IH]; intros ws; [reflexivity|]. cbn [blocks List.length]. now rewrite IH. Qed.
Lemma nth_skip : forall (l : list N) a j, nth j (skipn a l) 0 = nth (a + j) l 0.
Proof.
  intros l a. revert l. induction a as [|a IH]; intros l j; [reflexivity|]. destruct l as [|x l]; [destruct j; reflexivity|]. cbn [skipn Nat.add nth]. apply IH.
Qed.
Lemma nth_first : forall (l : list N) k j, (j < k)%nat -> nth j (firstn k l) 0 = nth j l 0.
Proof.
  intros l k. revert l. induction k as [|k IH]; intros l j H; [lia|]. destruct l as [|x l]; [destruct j; reflexivity|]. destruct j as [|j]; [reflexivity|]. cbn [firstn nth]. apply IH. lia.
Qed.
Lemma list_at : forall (f : nat -> N) n (l : list N), List.length l = n -> (forall j, (j < n)%nat -> nth j l 0 = f j) -> l = map f (seq 0 n).
Proof.
  intros f n l HL HN. apply nth_ext with (d := 0) (d' := 0); [now rewrite map_length, seq_length|]. intros j Hj. rewrite HN by lia.
  rewrite (nth_indep _ 0 (f (0%nat))) by (rewrite map_length, seq_length; lia). rewrite map_nth, seq_nth by lia. reflexivity.
Qed.
Lemma hash_gen : forall P K H0 comp s padded n ws, sha2_padded P s padded -> String.length padded = (16 * wy P * n)%nat ->
  List.length ws = (16 * n)%nat -> (forall j, (j < 16 * n)%nat -> nth j ws 0 = be_at (wy P) padded (wy P * j)) -> 256 ^ N.of_nat (wy P) = 2 ^ wb P ->
  List.length H0 = 8%nat -> Forall (word (wb P)) H0 ->
  (forall H M, List.length H = 8%nat -> Forall (word (wb P)) H -> List.length M = 16%nat -> Forall (word (wb P)) M ->
    sha2_block P K H M (comp H M) /\ List.length (comp H M) = 8%nat /\ Forall (word (wb P)) (comp H M)) ->
  sha2_hash P K H0 s (String.concat "" (map (big_endian (wy P)) (fold_left comp (blocks n ws) H0))) /\
  Forall (word (wb P)) (fold_left comp (blocks n ws) H0).
Proof.
  intros P K H0 comp s padded n ws HP HL LW HW HB L0 W0 HC.
  set (H := fun i => fold_left comp (firstn i (blocks n ws)) H0).
  assert (EB : forall i, (i < n)%nat -> nth i (blocks n ws) [] = map (fun j => be_at (wy P) padded (16 * wy P * i + wy P * j)) (seq 0 16)).
  { intros i Hi. rewrite blocks_at by exact Hi. apply list_at.
    - rewrite firstn_length, skipn_length. lia.
    - intros j Hj. rewrite nth_first, nth_skip by exact Hj. rewrite HW by lia. f_equal. lia. }
  assert (G : forall i, (i <= n)%nat -> List.length (H i) = 8%nat /\ Forall (word (wb P)) (H i) /\
    (forall u, (u < i)%nat -> sha2_block P K (H u) (map (fun j => be_at (wy P) padded (16 * wy P * u + wy P * j)) (seq 0 16)) (H (S u)))).
  { induction i as [|i IH]; intros Hi; [split; [exact L0|split; [exact W0|intros u Hu; lia]]|]. destruct IH as [I1 [I2 I3]]; [lia|].
    assert (E : H (S i) = comp (H i) (map (fun j => be_at (wy P) padded (16 * wy P * i + wy P * j)) (seq 0 16))).
    { unfold H at 1. rewrite (firstn_next _ []) by (rewrite blocks_length; lia). rewrite fold_left_app. cbn [fold_left]. fold (H i). rewrite EB by lia. reflexivity. }
    destruct (HC (H i) (map (fun j => be_at (wy P) padded (16 * wy P * i + wy P * j)) (seq 0 16)) I1 I2) as [C1 [C2 C3]].
    - now rewrite map_length, seq_length.
    - apply Forall_forall. intros x HX. apply in_map_iff in HX. destruct HX as [j [<- _]]. unfold word. rewrite <- HB. apply be_at_bound.
    - rewrite <- E in C1, C2, C3. split; [exact C2|]. split; [exact C3|]. intros u Hu. destruct (Nat.eq_dec u i) as [->|HU]; [exact C1|]. apply I3. lia. }
  destruct (G n (Nat.le_refl n)) as [_ [G2 G3]].
  assert (EH : fold_left comp (blocks n ws) H0 = H n) by (unfold H; rewrite <- (blocks_length n ws) at 2; now rewrite firstn_all).
  rewrite EH. split; [|exact G2]. exists n, padded, H. split; [exact HP|]. split; [exact HL|]. split; [reflexivity|]. split; [exact G3|reflexivity].
Qed.

(** ** Padding *)

Lemma be4_is : forall w, be4 w = big_endian 4 w.
Proof.
  intros w. unfold be4. cbn [big_endian append]. unfold byte, chr. cbn [append]. rewrite !N.div_div by discriminate. reflexivity.
Qed.
Lemma big_endian_app : forall a b x, big_endian (a + b) x = (big_endian a (x / 256 ^ N.of_nat b) ++ big_endian b x)%string.
Proof.
  intros a b. induction b as [|b IH]; intros x.
  - rewrite Nat.add_0_r. change (256 ^ N.of_nat 0) with 1. rewrite N.div_1_r. cbn [big_endian]. symmetry. apply sapp_nil_r.
  - rewrite Nat.add_succ_r. cbn [big_endian]. rewrite IH. rewrite N.div_div by (try apply N.pow_nonzero; discriminate). rewrite Nat2N.inj_succ, N.pow_succ_r'. now rewrite sapp_assoc.
Qed.
Lemma big_endian_mod : forall k x, big_endian k (x mod 256 ^ N.of_nat k) = big_endian k x.
Proof.
  induction k as [|k IH]; intros x; [reflexivity|]. cbn [big_endian]. rewrite Nat2N.inj_succ, N.pow_succ_r'.
  assert (HP : 256 ^ N.of_nat k <> 0) by (apply N.pow_nonzero; discriminate).
  rewrite N.mod_mul_r by (exact HP || discriminate). f_equal.
  - rewrite (N.mul_comm 256), N.div_add by discriminate. rewrite N.div_small by (apply N.mod_lt; discriminate). rewrite N.add_0_l. apply IH.
  - rewrite (N.mul_comm 256), N.mod_add by discriminate. rewrite N.mod_mod by discriminate. reflexivity.
Qed.
Lemma be8_is : forall w, be8 w = big_endian 8 w.
Proof.
  intros w. unfold be8. rewrite !be4_is. change 8%nat with (4 + 4)%nat. rewrite big_endian_app. change (256 ^ N.of_nat 4) with 4294967296. f_equal.
  change 4294967296 with (256 ^ N.of_nat 4). apply big_endian_mod.
Qed.
Lemma zeros_is : forall k, zeros k = zero_bytes k.
Proof. induction k as [|k IH]; [reflexivity|]. cbn [zeros zero_bytes append byte]. now rewrite IH. Qed.
Lemma zeros_len : forall k, String.length (zeros k) = k.
Proof. induction k as [|k IH]; [reflexivity|]. cbn [zeros String.length]. now rewrite IH. Qed.
Lemma big_endian_length : forall k x, String.length (big_endian k x) = k.
Proof. induction k as [|k IH]; intros x; [reflexivity|]. cbn [big_endian]. rewrite slen_app, IH. cbn [byte String.length]. lia. Qed.
Lemma pad_room : forall b l y, y < b -> exists q, l + 1 + ((2 * b - 1 - y) - l mod b) mod b + y = b * q /\ ((2 * b - 1 - y) - l mod b) mod b < b.
Proof.
  intros b l y HY. assert (HN : b <> 0) by lia. pose proof (N.mod_lt l b HN) as HR. pose proof (N.div_mod l b HN) as HD. set (r := l mod b) in *. set (q := l / b) in *. clearbody r q.
  destruct (N.lt_ge_cases (2 * b - 1 - y - r) b) as [H|H].
  - rewrite N.mod_small by exact H. exists (q + 2). split; [nia|exact H].
  - replace (2 * b - 1 - y - r) with ((b - 1 - y - r) + 1 * b) by lia. rewrite N.mod_add by exact HN. rewrite N.mod_small by lia. exists (q + 1). split; [nia|lia].
Qed.
Lemma pad256_is : forall s, sha2_padded sha2_256 s (pad256 s) /\ exists n, String.length (pad256 s) = (64 * n)%nat.
Proof.
  intros s. unfold pad256, sha2_padded. cbv zeta. set (l := N.of_nat (String.length s)). change (16 * wy sha2_256)%nat with 64%nat. change (ly sha2_256) with 8%nat.
  destruct (pad_room 64 l 8) as [q [HQ HZ]]; [reflexivity|]. change (2 * 64 - 1 - 8) with 119 in HQ, HZ. set (z := (119 - l mod 64) mod 64) in *.
  assert (EB : (be4 (l * 8 / 4294967296) ++ be4 (w32 (l * 8)))%string = big_endian 8 (8 * l)).
  { rewrite !be4_is, w32_mod. change (2 ^ 32) with (256 ^ N.of_nat 4). rewrite big_endian_mod. rewrite (N.mul_comm l 8). change 8%nat with (4 + 4)%nat. rewrite big_endian_app. reflexivity. }
  split.
  - exists (N.to_nat z). split; [lia|]. cbn [byte append]. rewrite EB, zeros_is. reflexivity.
  - exists (N.to_nat q). rewrite EB. cbn [append]. rewrite slen_app. cbn [String.length]. rewrite slen_app, zeros_len, big_endian_length. unfold l in *. clearbody z. lia.
Qed.
Lemma pad512_is : forall s, sha2_padded sha2_512 s (pad512 s) /\ exists n, String.length (pad512 s) = (128 * n)%nat.
Proof.
  intros s. unfold pad512, sha2_padded. cbv zeta. set (l := N.of_nat (String.length s)). change (16 * wy sha2_512)%nat with 128%nat. change (ly sha2_512) with 16%nat.
  destruct (pad_room 128 l 16) as [q [HQ HZ]]; [reflexivity|]. change (2 * 128 - 1 - 16) with 239 in HQ, HZ. set (z := (239 - l mod 128) mod 128) in *.
  assert (EB : (be8 (l * 8 / 18446744073709551616) ++ be8 (w64 (l * 8)))%string = big_endian 16 (8 * l)).
  { rewrite !be8_is. unfold w64. change 18446744073709551616 with (256 ^ N.of_nat 8). rewrite big_endian_mod. rewrite (N.mul_comm l 8). change 16%nat with (8 + 8)%nat. rewrite big_endian_app. reflexivity. }
  split.
  - exists (N.to_nat z). split; [lia|]. cbn [byte append]. rewrite EB, zeros_is. reflexivity.
  - exists (N.to_nat q). rewrite EB. cbn [append]. rewrite slen_app. cbn [String.length]. rewrite slen_app, zeros_len, big_endian_length. unfold l in *. clearbody z. lia.
Qed.

(** ** The two hashes *)

Lemma h0_256_words : Forall (word 32) h0_256.
Proof. repeat constructor. Qed.
Lemma h0_512_words : Forall (word 64) h0_512.
Proof. repeat constructor. Qed.
Lemma sha256_is : forall s, sha2_hash sha2_256 k256 h0_256 s (sha256 s).
Proof.
  intros s. unfold sha256. cbv zeta. destruct (pad256_is s) as [HP [n HN]].
  assert (LW : List.length (words (pad256 s)) = (16 * n)%nat) by (apply words_length; lia). rewrite LW. rewrite (Nat.mul_comm 16 n), Nat.div_mul by discriminate.
  rewrite (map_ext be4 (big_endian 4) be4_is).
  apply (hash_gen sha2_256 k256 h0_256 compress s (pad256 s) n (words (pad256 s))); [exact HP|exact HN|exact LW| |reflexivity|reflexivity|exact h0_256_words|exact compress_is].
  intros j Hj. apply words_at. lia.
Qed.
Lemma sha512_is : forall s, sha2_hash sha2_512 k512 h0_512 s (sha512 s).
Proof.
  intros s. unfold sha512. cbv zeta. destruct (pad512_is s) as [HP [n HN]].
  assert (LV : List.length (words (pad512 s)) = (2 * (16 * n))%nat) by (apply words_length; lia).
  assert (LW : List.length (words64 (words (pad512 s))) = (16 * n)%nat) by (now apply words64_length). rewrite LW. rewrite (Nat.mul_comm 16 n), Nat.div_mul by discriminate.
  rewrite (map_ext be8 (big_endian 8) be8_is).
  apply (hash_gen sha2_512 k512 h0_512 compress512 s (pad512 s) n (words64 (words (pad512 s)))); [exact HP|exact HN|exact LW| |reflexivity|reflexivity|exact h0_512_words|exact compress512_is].
  intros j Hj. rewrite words64_at by lia. rewrite !words_at by lia. change (wy sha2_512) with (4 + 4)%nat. rewrite be_at_split. change (256 ^ N.of_nat 4) with 4294967296.
  f_equal; [f_equal|]; f_equal; lia.
Qed.
