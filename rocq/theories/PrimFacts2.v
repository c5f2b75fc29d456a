(** The constants of SHA-2, polynomials over two elements and AES-256 against the standards. Used by C71. *)

From Coq Require Import Ascii String Arith NArith List Bool Lia.
From Verif Require Import Bytes BytesFacts ChaCha Sha256 Sha512 Aead AeadFacts SpecPrim PrimFacts.
Import ListNotations.
Local Open Scope N_scope.

(** ** Constants *)

Definition primes80 : list N :=
  [2; 3; 5; 7; 11; 13; 17; 19; 23; 29; 31; 37; 41; 43; 47; 53; 59; 61; 67; 71;
   73; 79; 83; 89; 97; 101; 103; 107; 109; 113; 127; 131; 137; 139; 149; 151; 157; 163; 167; 173;
   179; 181; 191; 193; 197; 199; 211; 223; 227; 229; 233; 239; 241; 251; 257; 263; 269; 271; 277; 281;
   283; 293; 307; 311; 313; 317; 331; 337; 347; 349; 353; 359; 367; 373; 379; 383; 389; 397; 401; 409].
Definition candidates : list N := map N.of_nat (seq 2 19).
Definition primeb (p : N) : bool := ((1 <? p) && forallb (fun d => (p <=? d) || negb (p mod d =? 0)) candidates)%bool.
Lemma candidates_in : forall d, 2 <= d <= 20 -> In d candidates.
Proof.
  intros d h. unfold candidates. apply in_map_iff. exists (N.to_nat d). split; [apply N2Nat.id|]. apply in_seq. lia.
Qed.
Lemma primeb_ok : forall p, p <= 409 -> (primeb p = true <-> is_prime p).
Proof.
  intros p hp. unfold primeb, is_prime. rewrite andb_true_iff, N.ltb_lt, forallb_forall. split.
  - intros [h1 h]. split; [exact h1|].
    assert (half : forall a b, a * b = p -> a <= b -> a = 1).
    { intros a b e l. destruct (N.eq_dec a 1) as [|ne]; [assumption|exfalso].
      assert (a <> 0) by (intros ->; lia). assert (a <= 20) by nia. assert (a < p) by nia.
      assert (hin : In a candidates) by (apply candidates_in; lia). specialize (h _ hin).
      apply orb_true_iff in h. destruct h as [h|h]; [apply N.leb_le in h; lia|]. apply negb_true_iff, N.eqb_neq in h.
      apply h. rewrite <- e, N.mul_comm. apply N.mod_mul. assumption. }
    intros a b e. destruct (N.le_gt_cases a b) as [l|l]; [left|right].
    + exact (half a b e l).
    + apply (half b a); [lia|lia].
  - intros [h1 h]. split; [exact h1|]. intros d hd. unfold candidates in hd. apply in_map_iff in hd. destruct hd as [m [<- hm]]. apply in_seq in hm.
    destruct (N.leb_spec p (N.of_nat m)) as [|l]; [reflexivity|]. cbn [orb]. apply negb_true_iff, N.eqb_neq. intro z.
    apply N.mod_divide in z; [|lia]. destruct z as [q e]. destruct (h q (N.of_nat m) (eq_sym e)); subst; lia.
Qed.
Fixpoint risingb (a : N) (l : list N) : bool := match l with [] => true | x :: r => (a <? x) && risingb x r end.
Lemma risingb_ok : forall l a, risingb a l = true -> rising a l.
Proof. induction l as [|x r IH]; intros a h; cbn in *; [exact I|]. apply andb_true_iff in h. destruct h as [h1 h2]. apply N.ltb_lt in h1. auto. Qed.
Lemma first_primes_check : forall l, risingb 0 l = true -> last l 0 <= 409 ->
  forallb (fun n => Bool.eqb (existsb (N.eqb (N.of_nat n)) l) (primeb (N.of_nat n))) (seq 0 (S (N.to_nat (last l 0)))) = true -> forallb (fun p => p <=? last l 0) l = true -> first_primes l.
Proof.
  intros l hr hl hc hb. split; [apply risingb_ok; exact hr|]. rewrite forallb_forall in hc, hb.
  assert (key : forall p, p <= last l 0 -> (In p l <-> is_prime p)).
  { intros p hp. specialize (hc (N.to_nat p)). rewrite N2Nat.id in hc. assert (hs : In (N.to_nat p) (seq 0 (S (N.to_nat (last l 0))))) by (apply in_seq; lia).
    specialize (hc hs). apply Bool.eqb_prop in hc. rewrite <- (primeb_ok p) by lia. rewrite <- hc, existsb_exists. split.
    - intro i. exists p. split; [exact i|apply N.eqb_refl].
    - intros [x [i e]]. apply N.eqb_eq in e. subst. exact i. }
  intro p. split.
  - intro i. assert (hp : p <= last l 0) by (apply N.leb_le, hb, i). split; [apply key; assumption|exact hp].
  - intros [i hp]. apply key; assumption.
Qed.
Lemma primes80_ok : first_primes primes80.
Proof. apply first_primes_check; [vm_compute; reflexivity|apply N.leb_le; vm_compute; reflexivity|vm_compute; reflexivity|vm_compute; reflexivity]. Qed.
Lemma primes64_ok : first_primes (firstn 64 primes80).
Proof. apply first_primes_check; [vm_compute; reflexivity|apply N.leb_le; vm_compute; reflexivity|vm_compute; reflexivity|vm_compute; reflexivity]. Qed.
Lemma primes8_ok : first_primes (firstn 8 primes80).
Proof. apply first_primes_check; [vm_compute; reflexivity|apply N.leb_le; vm_compute; reflexivity|vm_compute; reflexivity|vm_compute; reflexivity]. Qed.
(** The whole part is found among the first 21 numbers. *)
Definition rootb (e w : N) (pc : N * N) : bool := let '(p, c) := pc in
  ((c <? 2 ^ w) && existsb (fun q => let x := q * 2 ^ w + c in (x ^ e <=? p * 2 ^ (w * e)) && (p * 2 ^ (w * e) <? (x + 1) ^ e)) (1 :: candidates))%bool.
Lemma rootb_ok : forall e w pc, rootb e w pc = true -> root_bits e w (fst pc) (snd pc).
Proof.
  intros e w [p c] h. unfold rootb in h. apply andb_true_iff in h. destruct h as [h1 h2]. apply N.ltb_lt in h1. apply existsb_exists in h2.
  destruct h2 as [q [_ h2]]. apply andb_true_iff in h2. destruct h2 as [h2 h3]. apply N.leb_le in h2. apply N.ltb_lt in h3.
  split; [exact h1|]. exists q. split; assumption.
Qed.
Lemma Forall2_roots : forall e w ps cs, List.length ps = List.length cs -> forallb (rootb e w) (combine ps cs) = true -> Forall2 (root_bits e w) ps cs.
Proof.
  induction ps as [|p ps IH]; intros [|c cs] hl h; cbn [combine forallb List.length] in *; try discriminate hl; [constructor|].
  apply andb_true_iff in h. destruct h as [h1 h2]. constructor; [exact (rootb_ok e w (p, c) h1)|]. apply IH; [injection hl as hl; exact hl|exact h2].
Qed.
Lemma constants_ok : exists ps, first_primes (firstn 8 ps) /\ first_primes (firstn 64 ps) /\ first_primes ps /\ List.length ps = 80%nat /\
  Forall2 (root_bits 2 32) (firstn 8 ps) h0_256 /\ Forall2 (root_bits 3 32) (firstn 64 ps) k256 /\
  Forall2 (root_bits 2 64) (firstn 8 ps) h0_512 /\ Forall2 (root_bits 3 64) ps k512.
Proof.
  exists primes80. split; [exact primes8_ok|]. split; [exact primes64_ok|]. split; [exact primes80_ok|]. split; [reflexivity|].
  split; [apply Forall2_roots; vm_compute; reflexivity|]. split; [apply Forall2_roots; vm_compute; reflexivity|]. split; apply Forall2_roots; vm_compute; reflexivity.
Qed.

(** ** Polynomials *)

Lemma lxor_double : forall a b, 2 * N.lxor a b = N.lxor (2 * a) (2 * b).
Proof. intros a b. rewrite <- !N.double_spec. destruct a as [|a], b as [|b]; reflexivity. Qed.
Lemma lxor_four : forall a b c d, N.lxor (N.lxor a b) (N.lxor c d) = N.lxor (N.lxor a c) (N.lxor b d).
Proof. intros. apply N.bits_inj. intro i. rewrite !N.lxor_spec. destruct (N.testbit a i), (N.testbit b i), (N.testbit c i), (N.testbit d i); reflexivity. Qed.
Lemma times_add_l : forall a b c, times (N.lxor a b) c = N.lxor (times a c) (times b c).
Proof.
  intros a b [|c]; [reflexivity|]. cbn [times]. induction c as [c IH|c IH|]; cbn [times_pos]; [|rewrite IH; apply lxor_double|reflexivity].
  rewrite IH, lxor_double. apply lxor_four.
Qed.
Lemma times_double_l : forall a c, times (2 * a) c = 2 * times a c.
Proof.
  intros a [|c]; [reflexivity|]. cbn [times]. induction c as [c IH|c IH|]; cbn [times_pos]; [|rewrite IH; reflexivity|reflexivity].
  rewrite IH, <- lxor_double. reflexivity.
Qed.
Lemma times_0_l : forall c, times 0 c = 0.
Proof. intros [|c]; [reflexivity|]. cbn [times]. induction c as [c IH|c IH|]; cbn [times_pos]; [rewrite IH|rewrite IH|]; reflexivity. Qed.
Lemma times_1_l : forall c, times 1 c = c.
Proof. intros [|c]; [reflexivity|]. cbn [times]. induction c as [c IH|c IH|]; cbn [times_pos]; [rewrite IH|rewrite IH|]; reflexivity. Qed.
Lemma times_0_r : forall a, times a 0 = 0.
Proof. reflexivity. Qed.
Lemma times_double_r : forall a c, times a (2 * c) = 2 * times a c.
Proof. intros a [|c]; reflexivity. Qed.
Lemma remainder_add : forall n m x z x' z', remainder n m x z -> remainder n m x' z' -> remainder n m (N.lxor x x') (N.lxor z z').
Proof.
  intros n m x z x' z' [h [q e]] [h' [q' e']]. split; [apply lxor_lt; assumption|]. exists (N.lxor q q'). rewrite times_add_l, e, e'. apply lxor_four.
Qed.

(** ** AES *)

Definition inverses : list (N * N) :=
  [(0, 0); (1, 0); (141, 1); (246, 1); (203, 3); (82, 1); (123, 1); (209, 2); (232, 7); (79, 2); (41, 1); (192, 7); (176, 7); (225, 4); (229, 5); (199, 4); (116, 7); (180, 11); (170, 11); (75, 4); (153, 11); (43, 2); (96, 7); (95, 4); (88, 7); (63, 2); (253, 9); (204, 11); (255, 11); (64, 7); (238, 11); (178, 13); (58, 7); (110, 13); (90, 11); (241, 30); (85, 11); (77, 8); (168, 23); (201, 26); (193, 31); (10, 1); (152, 23); (21, 2); (48, 7); (68, 11); (162, 19); (194, 29); (44, 7); (69, 12); (146, 27); (108, 11); (243, 19); (57, 4); (102, 11); (66, 13); (242, 23); (53, 4); (32, 7); (111, 8); (119, 11); (187, 26); (89, 13); (25, 2); (29, 7); (254, 61); (55, 13); (103, 24); (45, 11); (49, 12); (245, 61); (105, 26); (167, 47); (100, 27); (171, 45); (19, 4); (84, 23); (37, 8); (233, 61); (9, 2); (237, 55); (92, 19); (5, 1); (202, 61); (76, 23); (36, 11); (135, 41); (191, 36); (24, 7); (62, 13); (34, 11); (240, 55); (81, 19); (236, 51); (97, 29); (23, 4); (22, 7); (94, 29); (175, 61); (211, 44); (73, 27); (166, 61); (54, 11); (67, 24); (244, 39); (71, 26); (145, 49); (223, 40); (51, 11); (147, 50); (33, 13); (59, 8); (121, 23); (183, 50); (151, 61); (133, 58); (16, 7); (181, 48); (186, 51); (60, 11); (182, 55); (112, 23); (208, 39); (6, 1); (161, 51); (250, 41); (129, 61); (130, 61); (131, 71); (126, 61); (127, 61); (128, 71); (150, 79); (115, 58); (190, 91); (86, 41); (155, 79); (158, 77); (149, 73); (217, 110); (247, 123); (2, 1); (185, 93); (164, 83); (222, 103); (106, 49); (50, 27); (109, 50); (216, 103); (138, 73); (132, 79); (114, 61); (42, 23); (20, 11); (159, 69); (136, 79); (249, 115); (220, 99); (137, 77); (154, 69); (251, 103); (124, 51); (46, 19); (195, 124); (143, 83); (184, 79); (101, 61); (72, 47); (38, 23); (200, 127); (18, 11); (74, 45); (206, 127); (231, 110); (210, 115); (98, 61); (12, 7); (224, 103); (31, 13); (239, 96); (17, 11); (117, 48); (120, 55); (113, 50); (165, 79); (142, 93); (118, 51); (61, 26); (189, 67); (188, 67); (134, 91); (87, 36); (11, 7); (40, 31); (47, 29); (163, 124); (218, 95); (212, 91); (228, 79); (15, 4); (169, 127); (39, 26); (83, 61); (4, 3); (27, 11); (252, 67); (172, 127); (230, 73); (122, 39); (7, 2); (174, 115); (99, 44); (197, 91); (219, 82); (226, 67); (234, 69); (148, 103); (139, 110); (196, 95); (213, 82); (157, 99); (248, 79); (144, 103); (107, 40); (177, 103); (13, 4); (214, 67); (235, 84); (198, 79); (14, 5); (207, 73); (173, 110); (8, 7); (78, 61); (215, 69); (227, 84); (93, 51); (80, 55); (30, 11); (179, 96); (91, 55); (35, 30); (56, 23); (52, 19); (104, 39); (70, 61); (3, 1); (140, 123); (221, 79); (156, 115); (125, 41); (160, 103); (205, 67); (26, 9); (65, 61); (28, 11)].
Definition affine (v i : N) : bool := xorb (xorb (xorb (xorb (xorb (N.testbit v i) (N.testbit v ((i + 4) mod 8))) (N.testbit v ((i + 5) mod 8))) (N.testbit v ((i + 6) mod 8)))
    (N.testbit v ((i + 7) mod 8))) (N.testbit 99 i).
Definition sub_ok (n : nat) : bool :=
  let x := N.of_nat n in let y := sub_byte x in let '(v, q) := nth n inverses (0, 0) in
  ((y <? 256) && (v <? 256) && ((x =? 0) && (v =? 0) || (times x v =? N.lxor 1 (times q 283))) &&
   forallb (fun i => Bool.eqb (N.testbit y i) (affine v i)) [0; 1; 2; 3; 4; 5; 6; 7])%bool.
Lemma sub_all : forallb sub_ok (seq 0 256) = true.
Proof. vm_compute. reflexivity. Qed.
Lemma sub_is : forall x, x < 256 -> is_sub x (sub_byte x).
Proof.
  intros x hx. pose proof sub_all as h. rewrite forallb_forall in h. specialize (h (N.to_nat x)).
  assert (hs : In (N.to_nat x) (seq 0 256)) by (apply in_seq; lia). specialize (h hs). clear hs. unfold sub_ok in h. rewrite N2Nat.id in h.
  destruct (nth (N.to_nat x) inverses (0, 0)) as [v q]. rewrite !andb_true_iff, !N.ltb_lt, orb_true_iff, andb_true_iff, !N.eqb_eq in h.
  destruct h as [[[h1 h2] h3] h4]. split; [exact h1|]. exists v. split; [exact h2|]. split.
  - destruct h3 as [h3|h3]; [left; exact h3|right]. split; [reflexivity|]. exists q. exact h3.
  - rewrite forallb_forall in h4. intros i hi. apply Bool.eqb_prop. apply h4.
    assert (hi' : i = 0 \/ i = 1 \/ i = 2 \/ i = 3 \/ i = 4 \/ i = 5 \/ i = 6 \/ i = 7) by lia. cbn [In].
    destruct hi' as [->|[->|[->|[->|[->|[->|[->| ->]]]]]]]; auto 10.
Qed.
Lemma sub_lt : forall x, x < 256 -> sub_byte x < 256.
Proof. intros x h. exact (proj1 (sub_is x h)). Qed.
Lemma xtime_is : forall x, x < 256 -> gf8 2 x (xtime x).
Proof.
  intros x h. unfold gf8, xtime.
  assert (e : times 2 x = 2 * x) by (change 2 with (2 * 1) at 1; rewrite times_double_l, times_1_l; reflexivity). rewrite e.
  destruct (N.leb_spec 256 (2 * x)) as [l|l].
  - split.
    + (* the top bits cancel *)
      replace (2 * x) with ((2 * x - 256) + 1 * 2 ^ 8) by lia. rewrite <- lor_add by (change (2 ^ 8) with 256; lia).
      assert (b : 2 * x - 256 < 2 ^ 8) by (change (2 ^ 8) with 256; lia). set (y := 2 * x - 256) in *.
      replace (N.lxor (N.lor y (1 * 2 ^ 8)) 283) with (N.lxor y 27).
      * apply lxor_lt; [exact b|reflexivity].
      * change 283 with (N.lor 27 (1 * 2 ^ 8)). apply N.bits_inj. intro i. rewrite !N.lxor_spec, !N.lor_spec.
        destruct (N.lt_ge_cases i 8) as [hi|hi].
        -- rewrite (N.mul_pow2_bits_low 1 8 i hi). rewrite !orb_false_r. reflexivity.
        -- rewrite (low_bits y 8 i b hi), (low_bits 27 8 i eq_refl hi). destruct (N.testbit (1 * 2 ^ 8) i); reflexivity.
    + exists 1. rewrite times_1_l, N.lxor_assoc, N.lxor_nilpotent, N.lxor_0_r. reflexivity.
  - split; [change (2 ^ 8) with 256; lia|]. exists 0. rewrite times_0_l, N.lxor_0_r. reflexivity.
Qed.
Lemma triple_is : forall x, x < 256 -> gf8 3 x (N.lxor (xtime x) x).
Proof.
  intros x h. unfold gf8. change 3 with (N.lxor 2 1). rewrite times_add_l, times_1_l. apply remainder_add; [exact (xtime_is x h)|].
  split; [exact h|]. exists 0. rewrite times_0_l, N.lxor_0_r. reflexivity.
Qed.
Lemma xtime_lt : forall x, x < 256 -> xtime x < 256.
Proof. intros x h. exact (proj1 (xtime_is x h)). Qed.

Lemma sixteen : forall (l : list N), List.length l = 16%nat -> exists a b c d e f g h i j k m n o p q, l = [a; b; c; d; e; f; g; h; i; j; k; m; n; o; p; q].
Proof.
  intros l h. do 16 (destruct l as [|? l]; [discriminate h|]). destruct l; [|discriminate h]. do 16 eexists. reflexivity.
Qed.
Definition bytes (l : list N) : Prop := Forall (fun x => x < 256) l.
Lemma word_bytes_is : forall x, word_bytes x = map (word_byte x) [0; 1; 2; 3]%nat.
Proof.
  intro x. unfold word_bytes, word_byte. cbn [map]. change (256 ^ N.of_nat (3 - 0)) with 16777216. change (256 ^ N.of_nat (3 - 1)) with 65536.
  change (256 ^ N.of_nat (3 - 2)) with 256. change (256 ^ N.of_nat (3 - 3)) with 1. rewrite N.div_1_r. reflexivity.
Qed.
Lemma word_byte_lt : forall x j, word_byte x j < 256.
Proof. intros. apply N.mod_lt. discriminate. Qed.
Lemma sub_each_is : forall x, sub_word x = sub_each sub_byte x.
Proof. intro x. unfold sub_word, sub_each. rewrite word_bytes_is. reflexivity. Qed.
Lemma rot_word_is : forall x, word 32 x -> rotl32 8 x = rot_word x.
Proof.
  intros x h. unfold rotl32, rot_word. rewrite w32_mod, N.shiftl_mul_pow2, N.shiftr_div_pow2. change (32 - 8) with 24.
  change (2 ^ 32) with (2 ^ 24 * 2 ^ 8). rewrite N.mul_mod_distr_r by discriminate. change 256 with (2 ^ 8).
  rewrite N.lor_comm, lor_add; [lia|]. apply N.div_lt_upper_bound; [discriminate|exact h].
Qed.
Lemma sub_each_word : forall x, word 32 (sub_each sub_byte x).
Proof.
  intro x. unfold sub_each. cbn [seq fold_left]. pose proof (fun j => sub_lt _ (word_byte_lt x j)) as h.
  pose proof (h 0%nat). pose proof (h 1%nat). pose proof (h 2%nat). pose proof (h 3%nat). unfold word. change (2 ^ 32) with 4294967296. lia.
Qed.
Lemma round_key_is : forall ws r, round_key ws r = map (fun i => word_byte (nth (4 * r + i / 4) ws 0) (i mod 4)) (seq 0 16).
Proof.
  intros ws r. unfold round_key. cbn [flat_map]. rewrite !word_bytes_is. rewrite <- (Nat.add_0_r (4 * r)) at 1. cbn [map seq List.app].
  reflexivity.
Qed.
Lemma add_key_is : forall ws r s, List.length s = 16%nat -> add_key s (round_key ws r) = with_key (fun i => nth i ws 0) r s.
Proof.
  intros ws r s h. destruct (sixteen s h) as [a [b [c [d [e [f [g [h' [i [j [k [m [n [o [p [q ->]]]]]]]]]]]]]]]].
  rewrite round_key_is. unfold with_key, add_key. cbn [map seq combine fst snd]. reflexivity.
Qed.
Lemma with_key_bytes : forall w r s, bytes s -> bytes (with_key w r s) /\ List.length (with_key w r s) = 16%nat.
Proof.
  intros w r s h. split; [|reflexivity]. unfold with_key, bytes. apply Forall_forall. intros x hx. apply in_map_iff in hx. destruct hx as [i [<- _]].
  apply lxor_byte; [|apply word_byte_lt]. unfold at_. destruct (Nat.lt_ge_cases i (List.length s)) as [l|l].
  - unfold bytes in h. rewrite Forall_forall in h. apply h, nth_In, l.
  - rewrite nth_overflow by exact l. reflexivity.
Qed.
Lemma shift_is : forall s, List.length s = 16%nat -> shift_rows (map sub_byte s) = sub_shift sub_byte s.
Proof.
  intros s h. destruct (sixteen s h) as [a [b [c [d [e [f [g [h' [i [j [k [m [n [o [p [q ->]]]]]]]]]]]]]]]].
  unfold shift_rows, sub_shift. cbn [map seq]. unfold at_. reflexivity.
Qed.
Lemma sub_shift_bytes : forall s, bytes s -> bytes (sub_shift sub_byte s) /\ List.length (sub_shift sub_byte s) = 16%nat.
Proof.
  intros s h. split; [|reflexivity]. apply Forall_forall. intros x hx. apply in_map_iff in hx. destruct hx as [i [<- _]]. apply sub_lt. unfold at_.
  match goal with |- nth ?j _ _ < _ => destruct (Nat.lt_ge_cases j (List.length s)) as [l|l] end.
  - unfold bytes in h. rewrite Forall_forall in h. apply h, nth_In, l.
  - rewrite nth_overflow by exact l. reflexivity.
Qed.
Lemma mix_is : forall s, List.length s = 16%nat -> bytes s -> mixed s (mix_columns s) /\ bytes (mix_columns s).
Proof.
  intros s h hb. destruct (sixteen s h) as [a [b [c [d [e [f [g [h' [i [j [k [m [n [o [p [q ->]]]]]]]]]]]]]]]].
  unfold bytes in hb. rewrite Forall_forall in hb. cbn [mix_columns mix_column List.app]. split.
  - split; [reflexivity|]. intros r cc hr hc.
    assert (hr' : (r = 0 \/ r = 1 \/ r = 2 \/ r = 3)%nat) by lia. assert (hc' : (cc = 0 \/ cc = 1 \/ cc = 2 \/ cc = 3)%nat) by lia.
    destruct hc' as [->|[->|[->| ->]]]; destruct hr' as [->|[->|[->| ->]]]; cbn [Nat.mul Nat.add Nat.modulo Nat.divmod Nat.sub snd at_ nth];
      do 2 eexists; (split; [apply xtime_is, hb; cbn [In]; auto 20|]); (split; [apply triple_is, hb; cbn [In]; auto 20|]); reflexivity.
  - unfold bytes. repeat apply Forall_cons; try apply Forall_nil; repeat apply lxor_byte; try apply xtime_lt; apply hb; cbn [In]; auto 20.
Qed.
(** The key schedule. *)
Definition next_word (i : nat) (a b : N) : N := N.lxor a
    (if (i mod 8 =? 0)%nat then N.lxor (sub_each sub_byte (rot_word b)) (2 ^ (N.of_nat (i / 8) - 1) * 2 ^ 24)
     else if (i mod 8 =? 4)%nat then sub_each sub_byte b else b).
Lemma rcon_is : forall j, (1 <= j <= 7)%nat -> Nat.iter (j - 1) xtime 1 = 2 ^ (N.of_nat j - 1).
Proof.
  intros j h. assert (h' : (j = 1 \/ j = 2 \/ j = 3 \/ j = 4 \/ j = 5 \/ j = 6 \/ j = 7)%nat) by lia.
  destruct h' as [->|[->|[->|[->|[->|[->| ->]]]]]]; reflexivity.
Qed.
Lemma next_word_word : forall i a b, (8 <= i < 60)%nat -> word 32 a -> word 32 b -> word 32 (next_word i a b).
Proof.
  intros i a b hi ha hb. unfold next_word. apply lxor_lt; [exact ha|]. destruct (i mod 8 =? 0)%nat.
  - apply lxor_lt; [apply sub_each_word|]. assert (hj : (1 <= i / 8 <= 7)%nat) by (pose proof (Nat.div_mod i 8 ltac:(lia)); pose proof (Nat.mod_upper_bound i 8 ltac:(lia)); lia).
    rewrite <- N.pow_add_r. apply N.pow_lt_mono_r; lia.
  - destruct (i mod 8 =? 4)%nat; [apply sub_each_word|exact hb].
Qed.
Lemma expand_step_is : forall ws i, List.length ws = i -> (8 <= i < 60)%nat -> word 32 (nth 0 ws 0) -> expand_step ws = next_word i (nth 7 ws 0) (nth 0 ws 0) :: ws.
Proof.
  intros ws i hl hi hw. unfold expand_step. cbv zeta. rewrite hl. unfold next_word. f_equal. f_equal.
  assert (hj : (1 <= i / 8 <= 7)%nat) by (pose proof (Nat.div_mod i 8 ltac:(lia)); pose proof (Nat.mod_upper_bound i 8 ltac:(lia)); lia).
  rewrite <- !sub_each_is, <- (rcon_is _ hj), <- rot_word_is by exact hw. pose proof (Nat.mod_upper_bound i 8 ltac:(lia)) as hm.
  assert (h' : (i mod 8 = 0 \/ i mod 8 = 1 \/ i mod 8 = 2 \/ i mod 8 = 3 \/ i mod 8 = 4 \/ i mod 8 = 5 \/ i mod 8 = 6 \/ i mod 8 = 7)%nat) by lia.
  destruct h' as [->|[->|[->|[->|[->|[->|[->| ->]]]]]]]; reflexivity.
Qed.
Lemma expand_gen : forall start, List.length start = 8%nat -> Forall (word 32) start ->
  forall k, (k <= 52)%nat -> let S := rev (Nat.iter k expand_step (rev start)) in
  List.length S = (8 + k)%nat /\ Forall (word 32) S /\ (forall t, (t < 8)%nat -> nth t S 0 = nth t start 0) /\
  (forall t, (8 <= t < 8 + k)%nat -> nth t S 0 = next_word t (nth (t - 8) S 0) (nth (t - 1) S 0)).
Proof.
  intros start HL HW k. induction k as [|k IH]; intro hk.
  - change (Nat.iter 0 expand_step (rev start)) with (rev start). rewrite rev_involutive. cbv zeta. split; [lia|]. split; [exact HW|]. split; [reflexivity|]. intros t Ht. lia.
  - specialize (IH ltac:(lia)). change (Nat.iter (S k) expand_step (rev start)) with (expand_step (Nat.iter k expand_step (rev start))).
    set (L := Nat.iter k expand_step (rev start)) in *. cbv zeta in IH |- *. remember (rev L) as S eqn:ES.
    assert (EL : L = rev S) by (rewrite ES; symmetry; apply rev_involutive). destruct IH as [I1 [I2 [I3 I4]]].
    assert (LL : List.length L = (8 + k)%nat) by (rewrite EL, rev_length; exact I1).
    assert (G : forall i, (i < 8)%nat -> nth i L 0 = nth (8 + k - Datatypes.S i) S 0) by (intros i Hi; rewrite EL, rev_nth by lia; now rewrite I1).
    assert (W : forall i, (i < 8 + k)%nat -> word 32 (nth i S 0)) by (intros i Hi; rewrite Forall_forall in I2; apply I2, nth_In; lia).
    rewrite (expand_step_is L (8 + k) LL) by (try lia; rewrite G by lia; apply W; lia). cbn [rev]. rewrite <- ES. rewrite !G by lia.
    rewrite app_length. cbn [List.length]. split; [lia|].
    split; [apply Forall_app; split; [exact I2|constructor; [apply next_word_word; [lia|apply W; lia|apply W; lia]|constructor]]|].
    split; [intros t Ht; rewrite app_nth1 by lia; now apply I3|].
    intros t Ht. destruct (Nat.eq_dec t (8 + k)) as [->|HN].
    + rewrite (app_nth2 S) by lia. rewrite I1, Nat.sub_diag. cbn [nth]. rewrite !app_nth1 by lia. f_equal; f_equal; lia.
    + rewrite !app_nth1 by lia. apply I4. lia.
Qed.
Lemma words_words : forall s, Forall (word 32) (words s).
Proof.
  intro s. apply Forall_forall. intros x hx. destruct (In_nth _ _ 0 hx) as [j [hj <-]].
  assert (hl : (4 * List.length (words s) <= String.length s)%nat).
  { clear. remember (String.length s) as n eqn:e. revert s e. induction n as [n IH] using lt_wf_ind. intros s e.
    destruct s as [|a [|b [|c [|d s]]]]; cbn [words List.length]; try lia. cbn [String.length] in e. pose proof (IH (String.length s) ltac:(lia) s eq_refl). lia. }
  rewrite words_at by lia. apply (be_at_bound 4).
Qed.
Lemma expand_facts : forall start S, List.length start = 8%nat -> Forall (word 32) start -> S = rev (Nat.iter 52 expand_step (rev start)) ->
  (forall t, (t < 8)%nat -> nth t S 0 = nth t start 0) /\
  (forall t, (8 <= t < 60)%nat -> nth t S 0 = next_word t (nth (t - 8) S 0) (nth (t - 1) S 0)).
Proof.
  intros start S h1 h2 ->. destruct (expand_gen start h1 h2 52 (le_n 52)) as [_ [_ [h3 h4]]]. split; assumption.
Qed.
Lemma expand_is : forall k, String.length k = 32%nat -> key_words sub_byte k (fun i => nth i (expand k) 0).
Proof.
  intros k hk. assert (hl : List.length (words k) = 8%nat) by (apply words_length; exact hk).
  pose proof (expand_facts (words k) (expand k) hl (words_words k)) as h. unfold expand at 1 in h. specialize (h eq_refl).
  generalize dependent (expand k). intros S [h1 h2]. split.
  - intros i hi. rewrite h1 by exact hi. apply words_at. lia.
  - exact h2.
Qed.
Lemma codes_at : forall b, map code (list_ascii_of_string b) = map (byte_at b) (seq 0 (String.length b)).
Proof.
  induction b as [|c b IH]; [reflexivity|]. cbn [list_ascii_of_string map String.length seq]. f_equal.
  rewrite IH, <- seq_shift, map_map. apply map_ext. reflexivity.
Qed.
Lemma at_codes : forall l, bytes l -> map (byte_at (string_of_list_ascii (map chr l))) (seq 0 (List.length l)) = l.
Proof.
  induction l as [|x l IH]; intro h; [reflexivity|]. inversion h as [|y l' hx hl]; subst. cbn [List.length seq map string_of_list_ascii]. f_equal.
  - exact (code_chr x hx).
  - rewrite <- seq_shift, map_map. rewrite <- (IH hl) at 2. apply map_ext. reflexivity.
Qed.
Lemma byte_at_bytes : forall s n, bytes (map (byte_at s) (seq 0 n)).
Proof. intros s n. apply Forall_forall. intros x hx. apply in_map_iff in hx. destruct hx as [i [<- _]]. apply byte_bound. Qed.
Lemma aes_is : forall k b, String.length k = 32%nat -> String.length b = 16%nat -> is_aes k b (aes_block (expand k) b).
Proof.
  intros k b hk hb. pose proof (expand_is k hk) as hx. set (ws := expand k) in *. clearbody ws. set (w := fun i => nth i ws 0).
  set (s0 := with_key w 0 (map (byte_at b) (seq 0 16))). set (st := fun r => fold_left (aes_round ws) (seq 1 r) s0).
  assert (ok : forall r, bytes (st r) /\ List.length (st r) = 16%nat /\ exists t, mixed (sub_shift sub_byte (st r)) t /\ st (S r) = with_key w (S r) t /\ bytes t).
  { assert (step : forall r, bytes (st r) /\ List.length (st r) = 16%nat -> exists t, mixed (sub_shift sub_byte (st r)) t /\ st (S r) = with_key w (S r) t /\ bytes t).
    { intros r [h1 h2]. destruct (sub_shift_bytes _ h1) as [h3 h4]. destruct (mix_is _ h4 h3) as [h5 h6]. exists (mix_columns (sub_shift sub_byte (st r))).
      split; [exact h5|]. split; [|exact h6]. unfold st at 1. rewrite seq_S, fold_left_app. cbn [fold_left Nat.add]. change (fold_left (aes_round ws) (seq 1 r) s0) with (st r).
      unfold aes_round. rewrite shift_is by exact h2. apply add_key_is. exact (proj1 h5). }
    induction r as [|r [I1 [I2 [t [I3 [I4 I5]]]]]].
    - assert (z : bytes (st 0%nat) /\ List.length (st 0%nat) = 16%nat) by (apply with_key_bytes, byte_at_bytes). split; [exact (proj1 z)|]. split; [exact (proj2 z)|]. apply step, z.
    - assert (z : bytes (st (S r)) /\ List.length (st (S r)) = 16%nat) by (rewrite I4; apply with_key_bytes, I5). split; [exact (proj1 z)|]. split; [exact (proj2 z)|]. apply step, z. }
  assert (out : aes_block ws b = string_of_list_ascii (map chr (with_key w 14 (sub_shift sub_byte (st 13%nat))))).
  { unfold aes_block. rewrite codes_at, hb. rewrite (add_key_is ws 0 (map (byte_at b) (seq 0 16)) eq_refl). change (with_key (fun i => nth i ws 0) 0 (map (byte_at b) (seq 0 16))) with s0.
    change (fold_left (aes_round ws) (seq 1 13) s0) with (st 13%nat). rewrite shift_is by apply ok. rewrite add_key_is by reflexivity. reflexivity. }
  exists sub_byte, w, st. split; [exact sub_is|]. split; [exact hx|]. split; [reflexivity|]. split; [|split].
  - intros r hr. destruct r as [|r]; [lia|]. destruct (ok r) as [_ [_ [t [h1 [h2 _]]]]]. exists t. rewrite Nat.sub_succ, Nat.sub_0_r. split; assumption.
  - apply aes_block_length.
  - rewrite out. apply (at_codes (with_key w 14 (sub_shift sub_byte (st 13%nat)))). apply with_key_bytes. apply (sub_shift_bytes (st 13%nat)). apply ok.
Qed.
