(** XChaCha20-Poly1305 of the model against RFC 8439 and draft-irtf-cfrg-xchacha. Used by C71. *)

From Coq Require Import Ascii String Arith NArith List Bool Lia.
From Verif Require Import Bytes BytesFacts ChaCha Sha256 Sha512 Aead AeadFacts SpecPrim PrimFacts PrimFacts2 PrimFacts3.
Import ListNotations.
Local Open Scope N_scope.

(** ** Little endian numbers *)

Lemma le_at_ext : forall k s t a b, (forall i, (i < k)%nat -> byte_at s (a + i) = byte_at t (b + i)) -> le_at k s a = le_at k t b.
Proof.
  intros k s t a b h. unfold le_at. assert (g : forall j n, (j + n <= k)%nat -> fold_right (fun i x => byte_at s (a + i) + 256 * x) 0 (seq j n) = fold_right (fun i x => byte_at t (b + i) + 256 * x) 0 (seq j n)).
  { intros j n. revert j. induction n as [|n IH]; intros j hn; [reflexivity|]. cbn [seq fold_right]. rewrite IH by lia. rewrite h by lia. reflexivity. }
  apply g. lia.
Qed.
Lemma le_at_S : forall k s o, le_at (S k) s o = byte_at s o + 256 * le_at k s (S o).
Proof.
  intros k s o. unfold le_at. cbn [seq fold_right]. rewrite Nat.add_0_r. f_equal. f_equal. rewrite <- seq_shift. generalize (seq 0 k). intro l.
  induction l as [|x l IH]; [reflexivity|]. cbn [map fold_right]. rewrite IH. f_equal. f_equal. lia.
Qed.
Lemma le_at_cons : forall k c s o, le_at k (String c s) (S o) = le_at k s o.
Proof. intros. apply le_at_ext. reflexivity. Qed.
Lemma le_at_bound : forall k s o, le_at k s o < 256 ^ N.of_nat k.
Proof.
  induction k as [|k IH]; intros s o; [reflexivity|]. rewrite le_at_S, Nat2N.inj_succ, N.pow_succ_r'. pose proof (byte_bound s o). specialize (IH s (S o)). nia.
Qed.
Lemma le_num_is : forall s, le_num s = le_at (String.length s) s 0.
Proof. induction s as [|c s IH]; [reflexivity|]. cbn [le_num String.length]. rewrite le_at_S, le_at_cons, <- IH. reflexivity. Qed.
Lemma le_num_app : forall a b, le_num (a ++ b) = le_num a + 256 ^ N.of_nat (String.length a) * le_num b.
Proof. induction a as [|c a IH]; intro b; cbn [append le_num String.length]; [change (256 ^ N.of_nat 0) with 1; lia|]. rewrite IH, Nat2N.inj_succ, N.pow_succ_r'. lia. Qed.
Lemma le_words_at : forall s j, (4 * j + 4 <= String.length s)%nat -> nth j (le_words s) 0 = le_at 4 s (4 * j).
Proof.
  intros s j. revert s. induction j as [|j IH]; intros s h; (destruct s as [|a [|b [|c [|d s]]]]; cbn [String.length] in h; try lia).
  - cbn [le_words nth]. change (4 * 0)%nat with 0%nat. rewrite !le_at_S. change (le_at 0 (String a (String b (String c (String d s)))) 4) with 0. cbn [byte_at String.get]. unfold byte_at. cbn [String.get].
    unfold code. lia.
  - cbn [le_words nth]. rewrite IH by lia. replace (4 * S j)%nat with (S (S (S (S (4 * j)))))%nat by lia. rewrite !le_at_cons. reflexivity.
Qed.
Lemma le_words_app : forall n a b, String.length a = (4 * n)%nat -> le_words (a ++ b) = (le_words a ++ le_words b)%list.
Proof.
  induction n as [|n IH]; intros a b h; [destruct a; [reflexivity|discriminate h]|]. destruct a as [|w [|x [|y [|z a]]]]; cbn [String.length] in h; try lia.
  cbn [append le_words List.app]. rewrite IH by lia. reflexivity.
Qed.
Lemma le_words_words : forall s, Forall (word 32) (le_words s).
Proof.
  intro s. remember (String.length s) as n eqn:e. revert s e. induction n as [n IH] using lt_wf_ind. intros s e.
  destruct s as [|a [|b [|c [|d s]]]]; cbn [le_words]; try constructor.
  - unfold word. pose proof (code_lt a). pose proof (code_lt b). pose proof (code_lt c). pose proof (code_lt d). change (2 ^ 32) with 4294967296. lia.
  - cbn [String.length] in e. apply (IH (String.length s)); [lia|reflexivity].
Qed.
Lemma le4_is : forall w, le4 w = little_endian 4 w.
Proof. intro w. unfold le4. cbn [little_endian append byte]. rewrite !N.div_div by discriminate. reflexivity. Qed.
Lemma le_bytes_is : forall n x, le_bytes n x = little_endian n x.
Proof. induction n as [|n IH]; intro x; [reflexivity|]. cbn [le_bytes little_endian byte append]. rewrite IH. reflexivity. Qed.
Lemma little_length : forall n x, String.length (little_endian n x) = n.
Proof. intros n x. rewrite <- le_bytes_is. apply le_bytes_length. Qed.
Lemma le_words_le4 : forall w s, word 32 w -> le_words (le4 w ++ s) = w :: le_words s.
Proof.
  intros w s h. unfold le4. cbn [append le_words]. rewrite !code_chr by (apply N.mod_lt; discriminate). f_equal.
  unfold word in h. change (2 ^ 32) with 4294967296 in h.
  pose proof (N.div_mod w 256 ltac:(discriminate)). pose proof (N.div_mod (w / 256) 256 ltac:(discriminate)). pose proof (N.div_mod (w / 256 / 256) 256 ltac:(discriminate)).
  pose proof (N.div_mod (w / 256 / 256 / 256) 256 ltac:(discriminate)).
  assert (z : w / 256 / 256 / 256 / 256 = 0) by (rewrite !N.div_div by discriminate; apply N.div_small; exact h).
  change 65536 with (256 * 256). change 16777216 with (256 * 256 * 256). rewrite <- !N.div_div by discriminate. lia.
Qed.
Lemma le_words_concat : forall l, Forall (word 32) l -> le_words (String.concat "" (map le4 l)) = l.
Proof.
  induction l as [|x l IH]; intro h; [reflexivity|]. inversion h as [|y l' hx hl]; subst. cbn [map]. rewrite concat_cons, le_words_le4 by exact hx. rewrite IH by exact hl. reflexivity.
Qed.

(** ** The rounds *)

Lemma rotl_is : forall n x, n <= 32 -> word 32 x -> rotl32 n x = rotate_left n x.
Proof.
  intros n x hn h. unfold rotl32, rotate_left. rewrite w32_mod, N.shiftl_mul_pow2, N.shiftr_div_pow2.
  assert (e : 2 ^ 32 = 2 ^ (32 - n) * 2 ^ n) by (rewrite <- N.pow_add_r; f_equal; lia).
  assert (nz : forall m, 2 ^ m <> 0) by (intro m; apply N.pow_nonzero; discriminate).
  rewrite e. rewrite N.mul_mod_distr_r by apply nz. rewrite N.lor_comm, lor_add; [lia|].
  apply N.div_lt_upper_bound; [apply nz|]. unfold word in h. lia.
Qed.
Lemma rotl_word : forall n x, n <= 32 -> word 32 x -> word 32 (rotl32 n x).
Proof.
  intros n x hn h. rewrite rotl_is by assumption. unfold rotate_left, word in *.
  assert (e : 2 ^ 32 = 2 ^ (32 - n) * 2 ^ n) by (rewrite <- N.pow_add_r; f_equal; lia).
  assert (nz : forall m, 2 ^ m <> 0) by (intro m; apply N.pow_nonzero; discriminate).
  rewrite e. rewrite N.mul_mod_distr_r by apply nz. rewrite e in h.
  assert (a : x / 2 ^ (32 - n) < 2 ^ n) by (apply N.div_lt_upper_bound; [apply nz|exact h]).
  assert (b : x mod 2 ^ (32 - n) < 2 ^ (32 - n)) by (apply N.mod_lt, nz).
  pose proof (N.mul_le_mono_r (x mod 2 ^ (32 - n) + 1) (2 ^ (32 - n)) (2 ^ n) ltac:(lia)) as m. rewrite N.mul_add_distr_r, N.mul_1_l in m. lia.
Qed.
Lemma add32_word : forall x y, word 32 (add32 x y).
Proof. intros. rewrite add32_mod. apply mod_word. Qed.
Lemma update_same : forall st i x, update st i x i = x.
Proof. intros. unfold update. rewrite Nat.eqb_refl. reflexivity. Qed.
Lemma update_other : forall st i x j, j <> i -> update st i x j = st j.
Proof. intros st i x j h. unfold update. apply Nat.eqb_neq in h. rewrite h. reflexivity. Qed.
Definition line (a b d : N) (n : N) : N * N := (add32 a b, rotl32 n (N.lxor d (add32 a b))).
Lemma half_is : forall st a b d n, a <> b -> a <> d -> b <> d -> n <= 32 -> word 32 (st d) -> forall i,
  half st a b d n i = if (i =? a)%nat then fst (line (st a) (st b) (st d) n) else if (i =? d)%nat then snd (line (st a) (st b) (st d) n) else st i.
Proof.
  intros st a b d n h1 h2 h3 hn hd i. unfold half, line. cbv zeta. cbn [fst snd]. rewrite <- add32_mod.
  rewrite update_same, (update_other st a _ d) by congruence. rewrite <- rotl_is; [|exact hn|apply lxor_lt; [exact hd|apply add32_word]].
  destruct (Nat.eqb_spec i a) as [->|na].
  - rewrite update_other by exact h2. apply update_same.
  - destruct (Nat.eqb_spec i d) as [->|nd]; [apply update_same|]. rewrite update_other by exact nd. apply update_other, na.
Qed.
Lemma line_words : forall a b d n, n <= 32 -> word 32 d -> word 32 (fst (line a b d n)) /\ word 32 (snd (line a b d n)).
Proof. intros a b d n hn hd. split; [apply add32_word|]. apply rotl_word; [exact hn|]. apply lxor_lt; [exact hd|apply add32_word]. Qed.
Lemma quarter_is : forall st a b c d ya yb yc yd, NoDup [a; b; c; d] -> word 32 (st b) -> word 32 (st d) ->
  quarter (st a) (st b) (st c) (st d) = (ya, yb, yc, yd) ->
  (forall i, quarter_round st (a, b, c, d) i = if (i =? a)%nat then ya else if (i =? b)%nat then yb else if (i =? c)%nat then yc else if (i =? d)%nat then yd else st i) /\
  word 32 ya /\ word 32 yb /\ word 32 yc /\ word 32 yd.
Proof.
  intros st a b c d ya yb yc yd nd wb wd e.
  assert (ne : a <> b /\ a <> c /\ a <> d /\ b <> c /\ b <> d /\ c <> d).
  { inversion nd as [|? ? n1 nd1]; subst. inversion nd1 as [|? ? n2 nd2]; subst. inversion nd2 as [|? ? n3 nd3]; subst. cbn [In] in *. intuition congruence. }
  destruct ne as [ab [ac [ad [bc [bd cd]]]]]. unfold quarter in e. cbv zeta in e.
  change (add32 (st a) (st b)) with (fst (line (st a) (st b) (st d) 16)) in e at 1.
  set (l1 := line (st a) (st b) (st d) 16).
  pose proof (line_words (st a) (st b) (st d) 16 ltac:(lia) wd) as [w1a w1d]. fold l1 in w1a, w1d.
  set (l2 := line (st c) (snd l1) (st b) 12). pose proof (line_words (st c) (snd l1) (st b) 12 ltac:(lia) wb) as [w2c w2b]. fold l2 in w2c, w2b.
  set (l3 := line (fst l1) (snd l2) (snd l1) 8). pose proof (line_words (fst l1) (snd l2) (snd l1) 8 ltac:(lia) w1d) as [w3a w3d]. fold l3 in w3a, w3d.
  set (l4 := line (fst l2) (snd l3) (snd l2) 7). pose proof (line_words (fst l2) (snd l3) (snd l2) 7 ltac:(lia) w2b) as [w4c w4b]. fold l4 in w4c, w4b.
  assert (e' : (fst l3, snd l4, fst l4, snd l3) = (ya, yb, yc, yd)) by exact e. clear e. injection e' as <- <- <- <-.
  assert (ee : forall x y : nat, x <> y -> (x =? y)%nat = false /\ (y =? x)%nat = false) by (intros x y h; split; apply Nat.eqb_neq; congruence).
  destruct (ee a b ab) as [ab1 ab2]. destruct (ee a c ac) as [ac1 ac2]. destruct (ee a d ad) as [ad1 ad2]. destruct (ee b c bc) as [bc1 bc2].
  destruct (ee b d bd) as [bd1 bd2]. destruct (ee c d cd) as [cd1 cd2].
  split; [|repeat split; assumption]. unfold quarter_round.
  set (s1 := half st a b d 16). assert (h1 : forall i, s1 i = if (i =? a)%nat then fst l1 else if (i =? d)%nat then snd l1 else st i) by (apply half_is; (assumption || lia)).
  assert (s1a : s1 a = fst l1) by (rewrite h1, Nat.eqb_refl; reflexivity). assert (s1d : s1 d = snd l1) by (rewrite h1, ad2, Nat.eqb_refl; reflexivity).
  assert (s1b : s1 b = st b) by (rewrite h1, ab2, bd1; reflexivity). assert (s1c : s1 c = st c) by (rewrite h1, ac2, cd1; reflexivity).
  set (s2 := half s1 c d b 12). assert (h2 : forall i, s2 i = if (i =? c)%nat then fst l2 else if (i =? b)%nat then snd l2 else s1 i).
  { intro i. unfold s2. rewrite half_is; try congruence; try lia; try (rewrite s1b; exact wb). rewrite s1c, s1d, s1b. reflexivity. }
  assert (s2a : s2 a = fst l1) by (rewrite h2, ac1, ab1; exact s1a). assert (s2d : s2 d = snd l1) by (rewrite h2, cd2, bd2; exact s1d).
  assert (s2b : s2 b = snd l2) by (rewrite h2, bc1, Nat.eqb_refl; reflexivity). assert (s2c : s2 c = fst l2) by (rewrite h2, Nat.eqb_refl; reflexivity).
  set (s3 := half s2 a b d 8). assert (h3 : forall i, s3 i = if (i =? a)%nat then fst l3 else if (i =? d)%nat then snd l3 else s2 i).
  { intro i. unfold s3. rewrite half_is; try congruence; try lia; try (rewrite s2d; exact w1d). rewrite s2a, s2d, s2b. reflexivity. }
  assert (s3a : s3 a = fst l3) by (rewrite h3, Nat.eqb_refl; reflexivity). assert (s3d : s3 d = snd l3) by (rewrite h3, ad2, Nat.eqb_refl; reflexivity).
  assert (s3b : s3 b = snd l2) by (rewrite h3, ab2, bd1; exact s2b). assert (s3c : s3 c = fst l2) by (rewrite h3, ac2, cd1; exact s2c).
  intro i. rewrite half_is; try congruence; try lia; try (rewrite s3b; exact w2b). rewrite s3c, s3d, s3b. fold l4.
  destruct (Nat.eqb_spec i a) as [->|na]; [rewrite ac1, ab1; exact s3a|]. destruct (Nat.eqb_spec i b) as [->|nb]; [rewrite bc1; reflexivity|].
  destruct (Nat.eqb_spec i c) as [->|nc]; [reflexivity|]. destruct (Nat.eqb_spec i d) as [->|nd']; [exact s3d|].
  apply Nat.eqb_neq in na, nb, nc, nd'. rewrite h3, na, nd', h2, nc, nb, h1, na, nd'. reflexivity.
Qed.
Definition agree (l : list N) (st : nat -> N) : Prop := List.length l = 16%nat /\ forall i, (i < 16)%nat -> st i = nth i l 0.
Definition put (l : list N) (a b c d : nat) (y : N * N * N * N) : list N :=
  let '(ya, yb, yc, yd) := y in map (fun i => if (i =? a)%nat then ya else if (i =? b)%nat then yb else if (i =? c)%nat then yc else if (i =? d)%nat then yd else nth i l 0) (seq 0 16).
Lemma put_is : forall l st a b c d, agree l st -> Forall (word 32) l -> NoDup [a; b; c; d] -> (a < 16)%nat -> (b < 16)%nat -> (c < 16)%nat -> (d < 16)%nat ->
  let l' := put l a b c d (quarter (nth a l 0) (nth b l 0) (nth c l 0) (nth d l 0)) in agree l' (quarter_round st (a, b, c, d)) /\ Forall (word 32) l'.
Proof.
  intros l st a b c d [hl ha] hw nd la lb lc ld. cbv zeta. assert (W : forall i, (i < 16)%nat -> word 32 (nth i l 0)) by (intros i hi; rewrite Forall_forall in hw; apply hw, nth_In; lia).
  rewrite <- !ha by assumption. destruct (quarter (st a) (st b) (st c) (st d)) as [[[ya yb] yc] yd] eqn:e. unfold put.
  destruct (quarter_is st a b c d ya yb yc yd nd) as [q [wa [wb [wc wd]]]]; [rewrite ha by assumption; apply W; assumption|rewrite ha by assumption; apply W; assumption|exact e|].
  split; [split; [reflexivity|]|].
  - intros i hi. rewrite q. set (F := fun j => if (j =? a)%nat then ya else if (j =? b)%nat then yb else if (j =? c)%nat then yc else if (j =? d)%nat then yd else nth j l 0).
    rewrite (nth_indep _ 0 (F 0%nat)) by (rewrite map_length, seq_length; exact hi). rewrite map_nth, seq_nth by exact hi. unfold F. cbn [Nat.add]. rewrite ha by exact hi. reflexivity.
  - apply Forall_forall. intros x hx. apply in_map_iff in hx. destruct hx as [i [<- hi]]. apply in_seq in hi.
    destruct (i =? a)%nat; [exact wa|]. destruct (i =? b)%nat; [exact wb|]. destruct (i =? c)%nat; [exact wc|]. destruct (i =? d)%nat; [exact wd|]. apply W. lia.
Qed.
Definition put_q (l : list N) (q : nat * nat * nat * nat) : list N :=
  let '(a, b, c, d) := q in put l a b c d (quarter (nth a l 0) (nth b l 0) (nth c l 0) (nth d l 0)).
Lemma fold_step : forall q r l m, put_q l q = m -> fold_left put_q (q :: r) l = fold_left put_q r m.
Proof. intros q r l m <-. reflexivity. Qed.
Lemma double_puts : forall l, List.length l = 16%nat -> double_round l = fold_left put_q two_rounds l.
Proof.
  intros l h. destruct (sixteen l h) as [x0 [x1 [x2 [x3 [x4 [x5 [x6 [x7 [x8 [x9 [x10 [x11 [x12 [x13 [x14 [x15 ->]]]]]]]]]]]]]]]].
  unfold double_round, two_rounds.
  repeat match goal with |- _ = fold_left put_q (?q :: ?r) ?l =>
    let t := eval cbv beta iota delta [put_q nth] in (put_q l q) in
    match t with context [quarter ?a ?b ?c ?d] => let E := fresh in destruct (quarter a b c d) as [[[? ?] ?] ?] eqn:E;
      erewrite (fold_step q r l) by (unfold put_q; cbn [nth]; rewrite E; cbn [put map seq Nat.eqb nth]; reflexivity) end end.
  reflexivity.
Qed.
Lemma double_is : forall l st, agree l st -> Forall (word 32) l -> agree (double_round l) (fold_left quarter_round two_rounds st) /\ Forall (word 32) (double_round l).
Proof.
  intros l st ha hw. rewrite double_puts by exact (proj1 ha).
  assert (ok : Forall (fun q => let '(a, b, c, d) := q in NoDup [a; b; c; d] /\ (a < 16)%nat /\ (b < 16)%nat /\ (c < 16)%nat /\ (d < 16)%nat) two_rounds).
  { unfold two_rounds. repeat apply Forall_cons; try apply Forall_nil; (split; [repeat constructor; cbn [In]; lia|lia]). }
  revert l st ha hw. induction ok as [|[[[a b] c] d] r [h1 [h2 [h3 [h4 h5]]]] _ IH]; intros l st ha hw; [split; assumption|]. cbn [fold_left].
  destruct (put_is l st a b c d ha hw h1 h2 h3 h4 h5) as [g1 g2]. apply IH; assumption.
Qed.
Lemma rounds_shift : forall n st, rounds (S n) st = rounds n (fold_left quarter_round two_rounds st).
Proof. reflexivity. Qed.
Lemma iter_inside : forall n (f : list N -> list N) x, Nat.iter (S n) f x = Nat.iter n f (f x).
Proof. induction n as [|n IH]; intros f x; [reflexivity|]. change (Nat.iter (S (S n)) f x) with (f (Nat.iter (S n) f x)). rewrite IH. reflexivity. Qed.
Lemma rounds_is : forall n l st, agree l st -> Forall (word 32) l -> agree (Nat.iter n double_round l) (rounds n st) /\ Forall (word 32) (Nat.iter n double_round l).
Proof.
  induction n as [|n IH]; intros l st ha hw; [split; assumption|]. rewrite iter_inside, rounds_shift. destruct (double_is l st ha hw) as [h1 h2]. apply IH; assumption.
Qed.

(** ** Blocks *)

Definition sigma : list N := [1634760805; 857760878; 2036477234; 1797285236].
Lemma sigma_is : le_words "expand 32-byte k" = sigma.
Proof. reflexivity. Qed.
Lemma start_is : forall key more, String.length key = 32%nat -> String.length more = 16%nat ->
  agree (sigma ++ le_words key ++ le_words more)%list (chacha_start key more) /\ Forall (word 32) (sigma ++ le_words key ++ le_words more)%list.
Proof.
  intros key more hk hm.
  assert (e : (sigma ++ le_words key ++ le_words more)%list = le_words ("expand 32-byte k" ++ key ++ more)).
  { rewrite (le_words_app 4 "expand 32-byte k" (key ++ more) eq_refl). rewrite (le_words_app 8 key more hk). rewrite sigma_is. reflexivity. }
  rewrite e. split; [|apply le_words_words]. assert (hl : String.length ("expand 32-byte k" ++ key ++ more) = 64%nat) by (rewrite !slen_app, hk, hm; reflexivity). split.
  - apply (le_words_length 16). exact hl.
  - intros i hi. unfold chacha_start. symmetry. apply le_words_at. lia.
Qed.
Lemma nth_sum : forall (l m : list N) i, (i < List.length l)%nat -> List.length l = List.length m ->
  nth i (map (fun ab => add32 (fst ab) (snd ab)) (combine l m)) 0 = (nth i l 0 + nth i m 0) mod 2 ^ 32.
Proof.
  induction l as [|x l IH]; intros [|y m] i hi hl; cbn [List.length] in *; try lia. cbn [combine map]. destruct i as [|i]; [apply add32_mod|]. exact (IH m i ltac:(lia) ltac:(lia)).
Qed.
Lemma block_is : forall key more a b c d, String.length key = 32%nat -> String.length more = 16%nat -> le_words more = [a; b; c; d] ->
  is_chacha_block key more (chacha_block (le_words key) (a, b) (c, d)).
Proof.
  intros key more a b c d hk hm e. split; [apply chacha_block_length, le_words_length; exact hk|]. intros i hi.
  assert (hl : String.length (chacha_block (le_words key) (a, b) (c, d)) = 64%nat) by (apply chacha_block_length, le_words_length; exact hk).
  rewrite <- le_words_at by lia. unfold chacha_block. cbv zeta. cbn [fst snd]. rewrite <- e. fold sigma.
  destruct (start_is key more hk hm) as [h1 h2]. set (init := (sigma ++ le_words key ++ le_words more)%list) in *.
  destruct (rounds_is 10 init _ h1 h2) as [h3 h4]. set (fin := Nat.iter 10 double_round init) in *. clearbody fin.
  rewrite le_words_concat.
  - rewrite nth_sum; [|rewrite (proj1 h3); exact hi|rewrite (proj1 h3), (proj1 h1); reflexivity]. rewrite (proj2 h3), (proj2 h1) by exact hi. reflexivity.
  - apply Forall_forall. intros x hx. apply in_map_iff in hx. destruct hx as [ab [<- _]]. apply add32_word.
Qed.
Definition inner_key (k n : string) : string := String.concat "" (map le4 (hchacha (le_words k) (le_words (take 16 n)))).
Lemma inner_is : forall k n, String.length k = 32%nat -> String.length n = 24%nat ->
  is_hchacha k (substring 0 16 n) (inner_key k n) /\ le_words (inner_key k n) = hchacha (le_words k) (le_words (take 16 n)).
Proof.
  intros k n hk hn. rewrite substring_take. assert (hm : String.length (take 16 n) = 16%nat) by (apply take_length; lia).
  unfold inner_key, hchacha. cbv zeta. fold sigma. destruct (start_is k (take 16 n) hk hm) as [h1 h2]. set (init := (sigma ++ le_words k ++ le_words (take 16 n))%list) in *.
  destruct (rounds_is 10 init _ h1 h2) as [h3 h4]. set (fin := Nat.iter 10 double_round init) in *. clearbody fin. destruct h3 as [hl h3].
  assert (hw : Forall (word 32) (firstn 4 fin ++ skipn 12 fin)%list).
  { rewrite Forall_forall in *. intros x hx. apply in_app_or in hx. apply h4.  destruct hx as [hx|hx].
    - rewrite <- (firstn_skipn 4 fin). apply in_or_app. left. exact hx.
    - rewrite <- (firstn_skipn 12 fin). apply in_or_app. right. exact hx. }
  split; [|apply le_words_concat; exact hw].
  assert (ho : String.length (String.concat "" (map le4 (firstn 4 fin ++ skipn 12 fin))) = 32%nat).
  { rewrite (concat_length _ le4 4) by reflexivity. rewrite app_length, firstn_length, skipn_length, hl. reflexivity. }
  split; [exact ho|]. intros i hi. replace (16 + 4 * i)%nat with (4 * (4 + i))%nat by lia.
  rewrite <- !le_words_at by lia. rewrite le_words_concat by exact hw. rewrite !h3 by lia. split.
  - rewrite app_nth1 by (rewrite firstn_length; lia). apply nth_first. lia.
  - rewrite app_nth2 by (rewrite firstn_length; lia). rewrite firstn_length, hl. rewrite nth_skip. f_equal. change (Nat.min 4 16) with 4%nat. lia.
Qed.
Lemma seal_block_is : exists block, is_chacha_block (zero_bytes 32) (zero_bytes 16) block /\ seal_cek = substring 0 32 block.
Proof.
  exists (chacha_block (repeat 0 8) (0, 0) (0, 0)). split; [exact (block_is (zero_bytes 32) (zero_bytes 16) 0 0 0 0 eq_refl eq_refl eq_refl)|]. unfold seal_cek. symmetry. apply substring_take.
Qed.
Lemma more_is : forall n i, String.length n = 24%nat -> N.of_nat i < 2 ^ 32 ->
  le_words (little_endian 4 (N.of_nat i) ++ zero_bytes 4 ++ substring 16 8 n) = [N.of_nat i; 0; nth 4 (le_words n) 0; nth 5 (le_words n) 0].
Proof.
  intros n i hn hi. rewrite <- le4_is, le_words_le4 by exact hi. f_equal. rewrite substring_drop. do 24 (destruct n as [|? n]; [discriminate hn|]). destruct n; [|discriminate hn]. reflexivity.
Qed.
Lemma xc_block_is : forall k n i, String.length k = 32%nat -> String.length n = 24%nat -> N.of_nat i < 2 ^ 32 ->
  is_chacha_block (inner_key k n) (little_endian 4 (N.of_nat i) ++ zero_bytes 4 ++ substring 16 8 n) (xc_block k n i).
Proof.
  intros k n i hk hn hi. destruct (inner_is k n hk hn) as [[h1 _] h2]. unfold xc_block. rewrite <- h2. apply block_is; [exact h1| |apply more_is; assumption].
  rewrite !slen_app, little_length. rewrite substring_drop, take_length by (rewrite drop_length; lia). reflexivity.
Qed.

(** ** Poly1305 *)

Definition clamp : N := 21267647620597763993911028882763415551.
Lemma clamp_bits : forall i, i < 128 -> N.testbit clamp i = negb (cleared i).
Proof.
  assert (h : forallb (fun n => Bool.eqb (N.testbit clamp (N.of_nat n)) (negb (cleared (N.of_nat n)))) (seq 0 128) = true) by (vm_compute; reflexivity).
  rewrite forallb_forall in h. intros i hi. specialize (h (N.to_nat i)). rewrite N2Nat.id in h. apply Bool.eqb_prop, h, in_seq. lia.
Qed.
Lemma horner : forall p r l a, p <> 0 -> fold_left (fun a b => (a + b) * r mod p) l a mod p = (a * r ^ N.of_nat (List.length l) + value_at r l) mod p.
Proof.
  intros p r l a hp. revert a. induction l as [|b l IH]; intro a; [cbn [fold_left value_at List.length]; change (N.of_nat 0) with 0; rewrite N.pow_0_r; f_equal; lia|].
  cbn [fold_left value_at]. rewrite IH. change (List.length (b :: l)) with (S (List.length l)). rewrite Nat2N.inj_succ, N.pow_succ_r'.
  rewrite <- (N.add_mod_idemp_l (_ mod p * _)) by exact hp. rewrite N.mul_mod_idemp_l by exact hp. rewrite N.add_mod_idemp_l by exact hp. f_equal. lia.
Qed.
Lemma horner_lt : forall p r l a, p <> 0 -> a < p -> fold_left (fun a b => (a + b) * r mod p) l a < p.
Proof. intros p r l a hp. revert a. induction l as [|b l IH]; intros a h; [exact h|]. cbn [fold_left]. apply IH, N.mod_lt, hp. Qed.
Lemma fold_map_left : forall (f : N -> N -> N) (g : nat -> N) (s : nat -> string) (q : string -> N) l a, (forall i, In i l -> q (s i) = g i) ->
  fold_left (fun x b => f x (q b)) (map s l) a = fold_left f (map g l) a.
Proof.
  intros f g s q l. induction l as [|i l IH]; intros a h; [reflexivity|]. cbn [map fold_left]. rewrite (h i) by (left; reflexivity). apply IH. intros j hj. apply h. right. exact hj.
Qed.
Lemma poly_is : forall key msg n, String.length key = 32%nat -> String.length msg = (16 * n)%nat -> is_poly1305 key msg (poly1305 key msg).
Proof.
  intros key msg n hk hm. set (blocks := map (fun i => le_at 16 msg (16 * i) + 2 ^ 128) (seq 0 n)).
  assert (hq : (String.length msg / 16 = n)%nat) by (rewrite hm, Nat.mul_comm; apply Nat.div_mul; lia).
  assert (hr : (String.length msg mod 16 = 0)%nat) by (rewrite hm, Nat.mul_comm; apply Nat.mod_mul; lia).
  assert (ek : le_num (take 16 key) = le_at 16 key 0).
  { rewrite le_num_is, take_length by lia. apply le_at_ext. intros i hi. apply byte_at_take. exact hi. }
  assert (es : le_num (drop 16 key) = le_at 16 key 16).
  { rewrite le_num_is, drop_length, hk. apply le_at_ext. intros i hi. apply byte_at_drop. }
  exists (N.land (le_at 16 key 0) clamp), blocks. split; [|split; [|split; [|split]]].
  - intro i. rewrite N.land_spec. destruct (N.lt_ge_cases i 128) as [l|l]; [rewrite clamp_bits by exact l; reflexivity|].
    rewrite (low_bits (le_at 16 key 0) 128 i (le_at_bound 16 key 0) l). reflexivity.
  - unfold blocks. rewrite map_length, seq_length. symmetry. exact hq.
  - exact hr.
  - intros i hi. unfold blocks in *. rewrite map_length, seq_length in hi. set (F := fun j => le_at 16 msg (16 * j) + 2 ^ 128).
    rewrite (nth_indep _ 0 (F 0%nat)) by (rewrite map_length, seq_length; exact hi). rewrite map_nth, seq_nth by exact hi. reflexivity.
  - unfold poly1305. cbv zeta. rewrite ek, es. fold clamp. rewrite (pieces_is n msg _ hm) by lia.
    set (r := N.land (le_at 16 key 0) clamp). set (P := 2 ^ 130 - 5). assert (hp : P <> 0) by discriminate. clearbody P.
    rewrite (fold_map_left (fun a b => (a + b) * r mod P) (fun i => le_at 16 msg (16 * i) + 2 ^ 128) (fun i => take 16 (drop (16 * i) msg)) (fun b => le_num (b ++ String (chr 1) ""))).
    + fold blocks. rewrite le_bytes_is. rewrite <- (N.mod_small (fold_left (fun a b => (a + b) * r mod P) blocks 0) P) by (apply horner_lt; [exact hp|lia]).
      rewrite horner by exact hp. rewrite N.mul_0_l, N.add_0_l. reflexivity.
    + intros i hi. apply in_seq in hi. rewrite le_num_app, (piece_length n msg i hm) by lia. rewrite le_num_is, (piece_length n msg i hm) by lia.
      change (256 ^ N.of_nat 16 * le_num (String (chr 1) "")) with (2 ^ 128). f_equal. apply le_at_ext. intros j hj. cbn [Nat.add]. rewrite byte_at_take by exact hj. apply byte_at_drop.
Qed.
Lemma xc_is : forall k n a p c, xc20p_enc k n a p = Some c -> is_xc20p k n a p c.
Proof.
  intros k n a p c h. unfold xc20p_enc in h. destruct (xc_fits k n p) eqn:hf; [|discriminate h]. apply xc_fits_ok in hf. destruct hf as [hk [hn hp]].
  cbv zeta in h. set (body := xor_bytes p (xc_stream k n (String.length p))) in h. assert (ec : c = (body ++ xc_tag k n a body)%string) by (injection h as <-; reflexivity). clear h.
  assert (hl : String.length body = String.length p) by (apply xor_length; rewrite xc_stream_length by assumption; lia).
  assert (hb : substring 0 (String.length p) c = body) by (rewrite substring_take, ec, <- hl; apply take_app).
  destruct (pad16_is a) as [z1 [n1 [pa1 [pa2 pa3]]]]. destruct (pad16_is body) as [z2 [n2 [pb1 [pb2 pb3]]]].
  exists (inner_key k n), (pad16 a), (pad16 body), (xc_block k n). cbv zeta. rewrite hb.
  split; [apply inner_is; assumption|]. split.
  { intros i hi. apply xc_block_is; [exact hk|exact hn|]. unfold len64 in hp. change (2 ^ 32) with 4294967296.
    assert (hd : N.of_nat (String.length p / 64) < 4294967295) by (rewrite Nat2N.inj_div; apply N.div_lt_upper_bound; [discriminate|exact hp]). lia. }
  split; [apply pad16_is|]. split; [apply pad16_is|]. split; [rewrite ec, slen_app, xc_tag_length, hl; reflexivity|]. split.
  - intros j hj. rewrite ec, byte_at_app1 by lia. unfold body. rewrite byte_at_xor by (rewrite ?xc_stream_length by assumption; exact hj). apply (f_equal2 N.lxor); [reflexivity|].
    unfold xc_stream. apply stream_at; [lia|intro i; apply xc_block_length; assumption|exact hj].
  - rewrite (substring_drop (String.length p) 16 c), ec, <- hl, drop_app, take_all by (rewrite xc_tag_length; lia). rewrite substring_take. unfold xc_tag. rewrite (le_bytes_is 8 (len64 a)), (le_bytes_is 8 (len64 body)). unfold len64.
    apply (poly_is _ _ (n1 + n2 + 1)).
    + apply take_length. rewrite xc_block_length by assumption. lia.
    + rewrite !slen_app, !little_length, pa3, pb3. lia.
Qed.
