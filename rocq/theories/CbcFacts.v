(** AES is a permutation of blocks; AES-256-CBC. Used by C73. *)

From Coq Require Import Ascii String Arith NArith List Bool Lia.
From Verif Require Import Bytes BytesFacts ChaCha Sha256 Sha512 Aead AeadFacts SpecPrim PrimFacts PrimFacts2 PrimFacts3 PrimUnique Envelope Cbc SpecCbc.
Import ListNotations.
Local Open Scope N_scope.

(** ** Inverses *)

Definition block (s : list N) : Prop := bytes s /\ List.length s = 16%nat.
Definition inverse (f g : list N -> list N) : Prop := forall s, block s -> block (f s) /\ block (g s) /\ g (f s) = s /\ f (g s) = s.
Lemma inverse_comp : forall f g f' g', inverse f g -> inverse f' g' -> inverse (fun s => f' (f s)) (fun s => g (g' s)).
Proof.
  intros f g f' g' H H' s hs. destruct (H s hs) as [a1 [_ [a2 _]]]. destruct (H' s hs) as [_ [b1 [_ b2]]].
  destruct (H' (f s) a1) as [c1 [_ [c2 _]]]. destruct (H (g' s) b1) as [_ [d1 [_ d2]]].
  split; [exact c1|]. split; [exact d1|]. rewrite c2, d2. split; [exact a2|exact b2].
Qed.
Lemma inverse_fold : forall (F G : list N -> nat -> list N) l, (forall r, inverse (fun s => F s r) (fun s => G s r)) ->
  inverse (fun s => fold_left F l s) (fun s => fold_left G (rev l) s).
Proof.
  intros F G l H. induction l as [|r l IH].
  - intros s hs. cbn [fold_left rev]. auto.
  - cbn [fold_left rev]. intros s hs. rewrite !fold_left_app. cbn [fold_left].
    exact (inverse_comp _ _ _ _ (H r) IH s hs).
Qed.

(** SubBytes. *)
Definition unsub (y : N) : N := match find (fun x => sub_byte x =? y) (map N.of_nat (seq 0 256)) with Some x => x | None => 0 end.
Definition unsub_table : list N := Eval vm_compute in map (fun n => unsub (N.of_nat n)) (seq 0 256).
Definition unsub_byte (y : N) : N := nth (N.to_nat y) unsub_table 0.
Lemma unsub_all : forallb (fun n => let x := N.of_nat n in ((unsub_byte (sub_byte x) =? x) && (sub_byte (unsub_byte x) =? x) && (unsub_byte x <? 256)))%bool (seq 0 256) = true.
Proof. vm_compute. reflexivity. Qed.
Lemma unsub_is : forall x, x < 256 -> unsub_byte (sub_byte x) = x /\ sub_byte (unsub_byte x) = x /\ unsub_byte x < 256.
Proof.
  intros x hx. pose proof unsub_all as h. rewrite forallb_forall in h. specialize (h (N.to_nat x)). cbv beta zeta in h. rewrite N2Nat.id in h.
  assert (hs : In (N.to_nat x) (seq 0 256)) by (apply in_seq; lia). specialize (h hs). rewrite !andb_true_iff, !N.eqb_eq, N.ltb_lt in h. tauto.
Qed.
Lemma map_inverse : forall f g : N -> N, (forall x, x < 256 -> f x < 256 /\ g x < 256 /\ g (f x) = x /\ f (g x) = x) -> inverse (map f) (map g).
Proof.
  intros f g H s [hb hl]. rewrite !map_map. unfold block. rewrite !map_length. unfold bytes in *. rewrite !Forall_map. rewrite Forall_forall in hb.
  split; [split; [apply Forall_forall; intros x hx; now apply H, hb|exact hl]|]. split; [split; [apply Forall_forall; intros x hx; now apply H, hb|exact hl]|].
  split; rewrite <- (map_id s) at 2; apply map_ext_in; intros x hx; now apply H, hb.
Qed.
Lemma sub_inverse : inverse (map sub_byte) (map unsub_byte).
Proof. apply map_inverse. intros x hx. destruct (unsub_is x hx) as [h1 [h2 h3]]. split; [now apply sub_lt|]. auto. Qed.

(** ShiftRows. *)
Definition unshift_rows (s : list N) : list N := map (fun i => nth i s 0) [0; 13; 10; 7; 4; 1; 14; 11; 8; 5; 2; 15; 12; 9; 6; 3]%nat.
Lemma pick_bytes : forall s l, bytes s -> bytes (map (fun i => nth i s 0) l).
Proof.
  intros s l h. apply Forall_forall. intros x hx. apply in_map_iff in hx. destruct hx as [i [<- _]]. destruct (Nat.lt_ge_cases i (List.length s)) as [b|b].
  - unfold bytes in h. rewrite Forall_forall in h. apply h, nth_In, b.
  - rewrite nth_overflow by exact b. reflexivity.
Qed.
Lemma shift_inverse : inverse shift_rows unshift_rows.
Proof.
  intros s [hb hl]. split; [split; [apply pick_bytes, hb|reflexivity]|]. split; [split; [apply pick_bytes, hb|reflexivity]|].
  destruct (sixteen s hl) as [a [b [c [d [e [f [g [h' [i [j [k [m [n [o [p [q ->]]]]]]]]]]]]]]]]. split; reflexivity.
Qed.

(** MixColumns. *)
Lemma xtime_bits : forall x, x < 256 -> xtime x = N.lxor (2 * x) (if N.testbit x 7 then 283 else 0).
Proof.
  intros x h. unfold xtime. rewrite N.testbit_eqb. change (2 ^ 7) with 128. destruct (N.leb_spec 256 (2 * x)) as [l|l].
  - assert (e : x / 128 = 1). { symmetry. apply (N.div_unique x 128 1 (x - 128)); lia. } rewrite e. reflexivity.
  - assert (e : x / 128 = 0) by (apply N.div_small; lia). rewrite e. symmetry. apply N.lxor_0_r.
Qed.
Lemma xtime_xor : forall a b, a < 256 -> b < 256 -> xtime (N.lxor a b) = N.lxor (xtime a) (xtime b).
Proof.
  intros a b ha hb. rewrite !xtime_bits by (try assumption; now apply lxor_byte). rewrite N.lxor_spec.
  assert (e : 2 * N.lxor a b = N.lxor (2 * a) (2 * b)).
  { rewrite <- !N.double_spec. apply N.bits_inj. intro i. rewrite N.lxor_spec. destruct (N.eq_0_gt_0_cases i) as [->|p].
    - rewrite !N.double_spec, !N.testbit_even_0. reflexivity.
    - rewrite !N.double_spec. rewrite <- (N.succ_pred i) by lia. rewrite !N.testbit_even_succ by lia. apply N.lxor_spec. }
  rewrite e. apply N.bits_inj. intro i. destruct (N.testbit a 7), (N.testbit b 7); cbn [xorb]; rewrite !N.lxor_spec, ?N.bits_0;
    destruct (N.testbit (2 * a) i), (N.testbit (2 * b) i), (N.testbit 283 i); reflexivity.
Qed.
Definition unmix_column (o0 o1 o2 o3 : N) : list N :=
  let s := N.lxor (N.lxor o0 o1) (N.lxor o2 o3) in
  let ac := N.lxor (N.lxor o0 o2) (xtime s) in
  let ab := N.lxor (N.lxor o0 o1) (xtime ac) in
  let a := N.lxor (N.lxor o0 s) (xtime ab) in
  let b := N.lxor ab a in let c := N.lxor ac a in
  [a; b; c; N.lxor (N.lxor s a) (N.lxor b c)].
Fixpoint unmix_columns (s : list N) : list N :=
  match s with
  | a :: b :: c :: d :: r => (unmix_column a b c d ++ unmix_columns r)%list
  | _ => []
  end.
Ltac xor_solve := apply N.bits_inj; intro; rewrite !N.lxor_spec;
  repeat match goal with |- context [N.testbit ?x ?i] => destruct (N.testbit x i) end; reflexivity.
Lemma column_forth : forall a b c d, a < 256 -> b < 256 -> c < 256 -> d < 256 ->
  match mix_column a b c d with [o0; o1; o2; o3] => unmix_column o0 o1 o2 o3 | _ => [] end = [a; b; c; d].
Proof.
  intros a b c d ha hb hc hd. unfold mix_column. cbv beta zeta. unfold unmix_column. cbv zeta.
  set (A := xtime a). set (B := xtime b). set (C := xtime c). set (D := xtime d).
  match goal with |- context [xtime ?x] => match x with N.lxor (N.lxor (N.lxor (N.lxor A _) _) _) _ => replace x with (N.lxor (N.lxor a b) (N.lxor c d)) by (clearbody A B C D; xor_solve) end end.
  assert (e1 : xtime (N.lxor (N.lxor a b) (N.lxor c d)) = N.lxor (N.lxor A B) (N.lxor C D)) by (rewrite !xtime_xor by (repeat apply lxor_byte; assumption); reflexivity).
  rewrite e1. clear e1.
  match goal with |- context [xtime ?x] => replace x with (N.lxor a c) by (clearbody A B C D; xor_solve) end.
  rewrite (xtime_xor a c ha hc). fold A C.
  match goal with |- context [xtime ?x] => replace x with (N.lxor a b) by (clearbody A B C D; xor_solve) end.
  rewrite (xtime_xor a b ha hb). fold A B. clearbody A B C D. f_equal; [xor_solve|]. f_equal; [xor_solve|]. f_equal; [xor_solve|]. f_equal. xor_solve.
Qed.
Lemma column_back : forall a b c d, a < 256 -> b < 256 -> c < 256 -> d < 256 ->
  match unmix_column a b c d with [o0; o1; o2; o3] => mix_column o0 o1 o2 o3 | _ => [] end = [a; b; c; d].
Proof.
  intros o0 o1 o2 o3 h0 h1 h2 h3. unfold unmix_column. cbv zeta.
  set (s := N.lxor (N.lxor o0 o1) (N.lxor o2 o3)). assert (hs : s < 256) by (repeat apply lxor_byte; assumption).
  set (S := xtime s). assert (hS : S < 256) by (apply xtime_lt, hs).
  set (ac := N.lxor (N.lxor o0 o2) S). assert (hac : ac < 256) by (repeat apply lxor_byte; assumption).
  set (Q := xtime ac). assert (hQ : Q < 256) by (apply xtime_lt, hac).
  set (ab := N.lxor (N.lxor o0 o1) Q). assert (hab : ab < 256) by (repeat apply lxor_byte; assumption).
  set (P := xtime ab). assert (hP : P < 256) by (apply xtime_lt, hab).
  set (a := N.lxor (N.lxor o0 s) P). assert (ha : a < 256) by (repeat apply lxor_byte; assumption).
  set (T := xtime a).
  unfold mix_column. cbv beta zeta. rewrite !xtime_xor by (repeat apply lxor_byte; assumption). fold T P Q S.
  clearbody T. unfold a. clearbody P. unfold ab. clearbody Q. unfold ac. clearbody S. unfold s.
  f_equal; [xor_solve|]. f_equal; [xor_solve|]. f_equal; [xor_solve|]. f_equal. xor_solve.
Qed.
Lemma unmix_lt : forall a b c d, a < 256 -> b < 256 -> c < 256 -> d < 256 -> bytes (unmix_column a b c d).
Proof.
  intros a b c d ha hb hc hd. unfold unmix_column. cbv zeta. unfold bytes. repeat apply Forall_cons; try apply Forall_nil; repeat first [assumption|apply lxor_byte|apply xtime_lt].
Qed.
Lemma mix_inverse : inverse mix_columns unmix_columns.
Proof.
  intros s [hb hl]. destruct (mix_is s hl hb) as [[m1 _] m2]. split; [split; assumption|].
  destruct (sixteen s hl) as [a [b [c [d [e [f [g [h' [i [j [k [m [n [o [p [q ->]]]]]]]]]]]]]]]]. unfold bytes in hb. rewrite Forall_forall in hb.
  assert (ha : forall x, In x [a; b; c; d; e; f; g; h'; i; j; k; m; n; o; p; q] -> x < 256) by exact hb. clear hb hl m1 m2.
  assert (F : forall u v w x r, u < 256 -> v < 256 -> w < 256 -> x < 256 ->
    unmix_columns (mix_column u v w x ++ r) = (u :: v :: w :: x :: unmix_columns r) /\ mix_columns (unmix_column u v w x ++ r) = (u :: v :: w :: x :: mix_columns r)).
  { intros u v w x r hu hv hw hx. pose proof (column_forth u v w x hu hv hw hx) as h1. pose proof (column_back u v w x hu hv hw hx) as h2. split.
    - unfold mix_column in h1 |- *. cbv beta zeta in h1 |- *. cbn [List.app unmix_columns]. rewrite h1. reflexivity.
    - unfold unmix_column in h2 |- *. cbv zeta in h2 |- *. cbn [List.app mix_columns]. rewrite h2. reflexivity. }
  split.
  { split; [|reflexivity]. cbn [unmix_columns]. unfold bytes. rewrite !Forall_app. repeat split; try apply Forall_nil; apply unmix_lt; apply ha; cbn [In]; auto 20. }
  pose proof (fun r => F a b c d r (ha a ltac:(cbn [In]; auto 20)) (ha b ltac:(cbn [In]; auto 20)) (ha c ltac:(cbn [In]; auto 20)) (ha d ltac:(cbn [In]; auto 20))) as F1.
  pose proof (fun r => F e f g h' r (ha e ltac:(cbn [In]; auto 20)) (ha f ltac:(cbn [In]; auto 20)) (ha g ltac:(cbn [In]; auto 20)) (ha h' ltac:(cbn [In]; auto 20))) as F2.
  pose proof (fun r => F i j k m r (ha i ltac:(cbn [In]; auto 20)) (ha j ltac:(cbn [In]; auto 20)) (ha k ltac:(cbn [In]; auto 20)) (ha m ltac:(cbn [In]; auto 20))) as F3.
  pose proof (fun r => F n o p q r (ha n ltac:(cbn [In]; auto 20)) (ha o ltac:(cbn [In]; auto 20)) (ha p ltac:(cbn [In]; auto 20)) (ha q ltac:(cbn [In]; auto 20))) as F4.
  clear F ha. remember (mix_column a b c d) as m1 eqn:e1. remember (mix_column e f g h') as m2 eqn:e2. remember (mix_column i j k m) as m3 eqn:e3. remember (mix_column n o p q) as m4 eqn:e4.
  remember (unmix_column a b c d) as u1 eqn:g1. remember (unmix_column e f g h') as u2 eqn:g2. remember (unmix_column i j k m) as u3 eqn:g3. remember (unmix_column n o p q) as u4 eqn:g4.
  cbn [mix_columns unmix_columns]. rewrite <- e1, <- e2, <- e3, <- e4, <- g1, <- g2, <- g3, <- g4. split.
  - rewrite (proj1 (F1 _)), (proj1 (F2 _)), (proj1 (F3 _)), (proj1 (F4 _)). reflexivity.
  - rewrite (proj2 (F1 _)), (proj2 (F2 _)), (proj2 (F3 _)), (proj2 (F4 _)). reflexivity.
Qed.

(** AddRoundKey. *)
Lemma key_inverse : forall ws r, inverse (fun s => add_key s (round_key ws r)) (fun s => add_key s (round_key ws r)).
Proof.
  intros ws r s [hb hl]. cbv beta. rewrite add_key_is by exact hl. destruct (with_key_bytes (fun i => nth i ws 0) r s hb) as [h1 h2].
  split; [split; assumption|]. split; [split; assumption|]. rewrite add_key_is by exact h2.
  assert (e : with_key (fun i => nth i ws 0) r (with_key (fun i => nth i ws 0) r s) = s); [|now split].
  destruct (sixteen s hl) as [a [b [c [d [e [f [g [h' [i [j [k [m [n [o [p [q ->]]]]]]]]]]]]]]]]. unfold with_key, at_. cbn [map seq nth].
  rewrite !N.lxor_assoc, !N.lxor_nilpotent, !N.lxor_0_r. reflexivity.
Qed.

(** The cipher. *)
Definition un_round (ws : list N) (s : list N) (r : nat) : list N := map unsub_byte (unshift_rows (unmix_columns (add_key s (round_key ws r)))).
Lemma round_inverse : forall ws r, inverse (fun s => aes_round ws s r) (fun s => un_round ws s r).
Proof.
  intros ws r. exact (inverse_comp _ _ _ _ (inverse_comp _ _ _ _ (inverse_comp _ _ _ _ sub_inverse shift_inverse) mix_inverse) (key_inverse ws r)).
Qed.
Definition last_round (ws s : list N) : list N := add_key (shift_rows (map sub_byte s)) (round_key ws 14).
Definition un_last (ws s : list N) : list N := map unsub_byte (unshift_rows (add_key s (round_key ws 14))).
Lemma last_inverse : forall ws, inverse (last_round ws) (un_last ws).
Proof. intros ws. exact (inverse_comp _ _ _ _ (inverse_comp _ _ _ _ sub_inverse shift_inverse) (key_inverse ws 14)). Qed.
Definition aes_list (ws s : list N) : list N := last_round ws (fold_left (aes_round ws) (seq 1 13) (add_key s (round_key ws 0))).
Definition un_list (ws s : list N) : list N := add_key (fold_left (un_round ws) (rev (seq 1 13)) (un_last ws s)) (round_key ws 0).
Lemma list_inverse : forall ws, inverse (aes_list ws) (un_list ws).
Proof. intros ws. exact (inverse_comp _ _ _ _ (inverse_comp _ _ _ _ (key_inverse ws 0) (inverse_fold _ _ (seq 1 13) (round_inverse ws))) (last_inverse ws)). Qed.
Definition codes (b : string) : list N := map code (list_ascii_of_string b).
Definition text_of_codes (l : list N) : string := string_of_list_ascii (map chr l).
Lemma codes_text : forall l, bytes l -> codes (text_of_codes l) = l.
Proof.
  intros l h. unfold codes, text_of_codes. rewrite list_ascii_of_string_of_list_ascii, map_map. rewrite <- (map_id l) at 2. apply map_ext_in. intros x hx.
  apply code_chr. unfold bytes in h. rewrite Forall_forall in h. now apply h.
Qed.
Lemma text_codes : forall b, text_of_codes (codes b) = b.
Proof.
  intros b. unfold codes, text_of_codes. rewrite map_map. rewrite <- (string_of_list_ascii_of_string b) at 2. f_equal. rewrite <- (map_id (list_ascii_of_string b)) at 2. apply map_ext. intro c. apply chr_code.
Qed.
Lemma codes_block : forall b, String.length b = 16%nat -> block (codes b).
Proof.
  intros b h. unfold codes. rewrite codes_at, h. split; [apply byte_at_bytes|reflexivity].
Qed.
Lemma text_length : forall l, String.length (text_of_codes l) = List.length l.
Proof. intros l. unfold text_of_codes. induction l as [|x l IH]; [reflexivity|]. cbn [map string_of_list_ascii String.length List.length]. now rewrite IH. Qed.
Lemma aes_block_list : forall ws b, aes_block ws b = text_of_codes (aes_list ws (codes b)).
Proof. reflexivity. Qed.
Definition un_block (ws : list N) (c : string) : string := text_of_codes (un_list ws (codes c)).
Lemma aes_permutes : forall ws b, String.length b = 16%nat -> un_block ws (aes_block ws b) = b /\ aes_block ws (un_block ws b) = b /\ String.length (un_block ws b) = 16%nat.
Proof.
  intros ws b h. rewrite !aes_block_list. unfold un_block. pose proof (codes_block b h) as hb. destruct (list_inverse ws _ hb) as [[b1 l1] [[b2 l2] [e1 e2]]].
  remember (aes_list ws (codes b)) as x eqn:ex. remember (un_list ws (codes b)) as y eqn:ey. rewrite !codes_text by assumption. rewrite e1, e2, text_codes, text_length. auto.
Qed.
Lemma aes_inj : forall ws a b, String.length a = 16%nat -> String.length b = 16%nat -> aes_block ws a = aes_block ws b -> a = b.
Proof.
  intros ws a b ha hb h. destruct (aes_permutes ws a ha) as [e1 _]. destruct (aes_permutes ws b hb) as [e2 _]. rewrite <- e1, <- e2. now rewrite h.
Qed.

(** ** CBC *)

Lemma fill_length : forall c n, String.length (fill c n) = n.
Proof. intros c. induction n as [|n IH]; [reflexivity|]. cbn [fill String.length]. now rewrite IH. Qed.
Lemma fill_at : forall c n i, (i < n)%nat -> byte_at (fill c n) i = code c.
Proof. intros c. induction n as [|n IH]; intros i h; [lia|]. destruct i as [|i]; [reflexivity|]. exact (IH i ltac:(lia)). Qed.
Definition pad_count (s : string) : nat := (16 - String.length s mod 16)%nat.
Definition block_count (s : string) : nat := S (String.length s / 16).
Lemma pad_facts : forall s, (1 <= pad_count s <= 16)%nat /\ (String.length s + pad_count s = 16 * block_count s)%nat /\ String.length (pad7 s) = (16 * block_count s)%nat /\
  forall j, (j < 16 * block_count s)%nat -> byte_at (pad7 s) j = padded_at s (pad_count s) j.
Proof.
  intros s. unfold pad7, pad_count, block_count. pose proof (Nat.div_mod (String.length s) 16 ltac:(lia)) as e. pose proof (Nat.mod_upper_bound (String.length s) 16 ltac:(lia)) as b.
  set (p := (16 - String.length s mod 16)%nat). assert (hp : (1 <= p <= 16)%nat) by (subst p; lia). assert (hs : (String.length s + p = 16 * S (String.length s / 16))%nat) by (subst p; lia).
  split; [exact hp|]. split; [exact hs|]. cbv zeta. split; [rewrite slen_app, fill_length; exact hs|].
  intros j hj. unfold padded_at. destruct (Nat.ltb_spec j (String.length s)) as [l|l]; [now apply byte_at_app1|].
  replace j with (String.length s + (j - String.length s))%nat by lia. rewrite byte_at_app2, fill_at by lia. apply code_chr. lia.
Qed.
Lemma cbc_at : forall ws n a f prev, (forall i, (a <= i < a + n)%nat -> String.length (f i) = 16%nat) ->
  let out := cbc_blocks ws prev (map f (seq a n)) in String.length out = (16 * n)%nat /\
  forall i, (i < n)%nat -> take 16 (drop (16 * i) out) = aes_block ws (xor_bytes (f (a + i)%nat) (if (i =? 0)%nat then prev else take 16 (drop (16 * (i - 1)) out))).
Proof.
  intros ws. induction n as [|n IH]; intros a f prev hf; cbn [seq map cbc_blocks]; cbv zeta.
  - split; [reflexivity|]. intros i hi. lia.
  - remember (aes_block ws (xor_bytes (f a) prev)) as c eqn:ec. assert (lc : String.length c = 16%nat) by (rewrite ec; apply aes_block_length).
    destruct (IH (S a) f c) as [h1 h2]; [intros i hi; apply hf; lia|]. cbv zeta in h1, h2. remember (cbc_blocks ws c (map f (seq (S a) n))) as rest eqn:er.
    split; [rewrite slen_app, lc, h1; lia|].
    assert (T : take 16 (c ++ rest) = c) by (rewrite <- lc; apply take_app).
    assert (D : forall i, drop (16 * S i) (c ++ rest) = drop (16 * i) rest).
    { intro i. replace (16 * S i)%nat with (String.length c + 16 * i)%nat by lia. rewrite <- drop_drop. now rewrite drop_app. }
    intros [|i] hi.
    + cbn [Nat.eqb]. change (drop (16 * 0) (c ++ rest)) with (c ++ rest)%string. rewrite T, Nat.add_0_r. exact ec.
    + rewrite D, (h2 i) by lia. cbn [Nat.eqb]. rewrite Nat.sub_succ, Nat.sub_0_r. replace (S a + i)%nat with (a + S i)%nat by lia. f_equal. f_equal.
      destruct i as [|i]; [cbn [Nat.eqb]; change (drop (16 * 0) (c ++ rest)) with (c ++ rest)%string; now rewrite T|]. cbn [Nat.eqb]. rewrite D, Nat.sub_succ, Nat.sub_0_r. reflexivity.
Qed.
Lemma cbc_is : forall key iv text, String.length key = 32%nat -> String.length iv = 16%nat -> is_cbc key iv text (cbc256 key iv text).
Proof.
  intros key iv text hk hv. destruct (pad_facts text) as [h1 [h2 [h3 h4]]]. exists (pad_count text), (block_count text). split; [exact h1|]. split; [exact h2|].
  set (n := block_count text) in *. set (P := pad7 text) in *. set (f := fun i => take 16 (drop (16 * i) P)).
  assert (e : cbc256 key iv text = cbc_blocks (expand key) iv (map f (seq 0 n))).
  { unfold cbc256. cbv zeta. fold P. rewrite (pieces_is n P) by (try exact h3; rewrite h3; lia). reflexivity. }
  rewrite e. clear e. assert (hf : forall i, (i < n)%nat -> String.length (f i) = 16%nat) by (intros i hi; now apply (piece_length n)).
  destruct (cbc_at (expand key) n 0 f iv) as [g1 g2]; [intros i hi; apply hf; lia|]. cbv zeta in g1, g2. remember (cbc_blocks (expand key) iv (map f (seq 0 n))) as out eqn:eo. clear eo.
  split; [exact g1|]. intros i hi. specialize (g2 i hi). rewrite Nat.add_0_l in g2.
  set (prev := if (i =? 0)%nat then iv else take 16 (drop (16 * (i - 1)) out)) in *.
  assert (lp : String.length prev = 16%nat) by (subst prev; destruct (i =? 0)%nat; [exact hv|apply take_length; rewrite drop_length; lia]).
  exists (xor_bytes (f i) prev). assert (lx : String.length (xor_bytes (f i) prev) = 16%nat) by (rewrite xor_length; rewrite hf by exact hi; lia).
  split; [exact lx|]. split.
  - intros j hj. rewrite byte_at_xor by (rewrite ?hf, ?lp by exact hi; exact hj). f_equal.
    + unfold f. rewrite byte_at_take, byte_at_drop by exact hj. apply h4. lia.
    + subst prev. destruct (i =? 0)%nat eqn:ei; [reflexivity|]. rewrite byte_at_take by exact hj. apply byte_at_drop.
  - rewrite substring_drop, g2. now apply aes_is.
Qed.
Lemma counts : forall t p n, (1 <= p <= 16)%nat -> (String.length t + p = 16 * n)%nat -> p = pad_count t /\ n = block_count t.
Proof.
  intros t p n h1 h2. destruct (pad_facts t) as [g1 [g2 _]]. lia.
Qed.
Lemma aes_of : forall k x y, String.length k = 32%nat -> String.length x = 16%nat -> is_aes k x y -> y = aes_block (expand k) x.
Proof. intros k x y hk hx h. apply (aes_unique k x); [exact h|now apply aes_is]. Qed.
(** The blocks of two results agree as far as those of the texts. *)
Lemma cbc_agree : forall key iv t1 t2 c1 c2 k, is_cbc key iv t1 c1 -> is_cbc key iv t2 c2 -> (k <= block_count t1)%nat -> (k <= block_count t2)%nat ->
  (forall j, (j < 16 * k)%nat -> padded_at t1 (pad_count t1) j = padded_at t2 (pad_count t2) j) -> forall j, (j < 16 * k)%nat -> byte_at c1 j = byte_at c2 j.
Proof.
  intros key iv t1 t2 c1 c2 k [p1 [n1 [a1 [a2 [a3 a4]]]]] [p2 [n2 [b1 [b2 [b3 b4]]]]] k1 k2 H.
  destruct (counts _ _ _ a1 a2) as [-> ->]. destruct (counts _ _ _ b1 b2) as [-> ->].
  induction k as [|k IH]; intros j hj; [lia|]. assert (I : forall j, (j < 16 * k)%nat -> byte_at c1 j = byte_at c2 j) by (apply IH; [lia|lia|intros i hi; apply H; lia]). clear IH.
  destruct (Nat.lt_ge_cases j (16 * k)) as [l|l]; [now apply I|].
  destruct (a4 k ltac:(lia)) as [x1 [l1 [e1 r1]]]. destruct (b4 k ltac:(lia)) as [x2 [l2 [e2 r2]]].
  assert (ex : x1 = x2).
  { apply string_ext; [congruence|]. rewrite l1. intros i hi. rewrite e1, e2 by exact hi. rewrite H by lia. f_equal. destruct k as [|k]; [reflexivity|]. cbn [Nat.eqb]. apply I. lia. }
  subst x2. pose proof (aes_unique _ _ _ _ r1 r2) as es. rewrite !substring_drop in es.
  replace j with (16 * k + (j - 16 * k))%nat by lia. rewrite <- !byte_at_drop. rewrite <- (byte_at_take 16 (drop (16 * k) c1)) by lia. rewrite <- (byte_at_take 16 (drop (16 * k) c2)) by lia. now rewrite es.
Qed.
Lemma cbc_unique : forall key iv t c c', is_cbc key iv t c -> is_cbc key iv t c' -> c = c'.
Proof.
  intros key iv t c c' h h'. assert (L : String.length c = (16 * block_count t)%nat /\ String.length c' = (16 * block_count t)%nat).
  { destruct h as [p [n [a1 [a2 [a3 _]]]]]. destruct h' as [p' [n' [b1 [b2 [b3 _]]]]]. destruct (counts _ _ _ a1 a2) as [-> ->]. destruct (counts _ _ _ b1 b2) as [-> ->]. now split. }
  destruct L as [l1 l2]. apply string_ext; [congruence|]. rewrite l1. intros j hj. exact (cbc_agree key iv t t c c' _ h h' (le_n _) (le_n _) (fun _ _ => eq_refl) j hj).
Qed.
(** And the texts as far as the results. *)
Lemma cbc_back : forall key iv t1 t2 c1 c2 k, String.length key = 32%nat -> is_cbc key iv t1 c1 -> is_cbc key iv t2 c2 -> (k <= block_count t1)%nat -> (k <= block_count t2)%nat ->
  (forall j, (j < 16 * k)%nat -> byte_at c1 j = byte_at c2 j) -> forall j, (j < 16 * k)%nat -> padded_at t1 (pad_count t1) j = padded_at t2 (pad_count t2) j.
Proof.
  intros key iv t1 t2 c1 c2 k hk [p1 [n1 [a1 [a2 [a3 a4]]]]] [p2 [n2 [b1 [b2 [b3 b4]]]]] k1 k2 H j hj.
  destruct (counts _ _ _ a1 a2) as [-> ->]. destruct (counts _ _ _ b1 b2) as [-> ->].
  pose proof (Nat.div_mod j 16 ltac:(lia)) as e. pose proof (Nat.mod_upper_bound j 16 ltac:(lia)) as b. set (i := (j / 16)%nat) in *. set (r := (j mod 16)%nat) in *. clearbody i r. subst j.
  destruct (a4 i ltac:(lia)) as [x1 [l1 [e1 r1]]]. destruct (b4 i ltac:(lia)) as [x2 [l2 [e2 r2]]].
  assert (es : substring (16 * i) 16 c1 = substring (16 * i) 16 c2).
  { rewrite !substring_drop. apply string_ext; [rewrite !take_length; rewrite ?drop_length; lia|]. rewrite take_length by (rewrite drop_length; lia). intros q hq.
    rewrite !byte_at_take, !byte_at_drop by exact hq. apply H. lia. }
  assert (ex : x1 = x2).
  { apply (aes_inj (expand key)); [exact l1|exact l2|]. rewrite <- (aes_of key x1 _ hk l1 r1), <- (aes_of key x2 _ hk l2 r2). exact es. }
  subst x2. specialize (e1 r b). specialize (e2 r b). rewrite e1 in e2.
  assert (em : (if (i =? 0)%nat then byte_at iv r else byte_at c1 (16 * (i - 1) + r)) = (if (i =? 0)%nat then byte_at iv r else byte_at c2 (16 * (i - 1) + r))).
  { destruct (Nat.eqb_spec i 0) as [_|ni]; [reflexivity|]. apply H. lia. }
  rewrite em in e2. apply (f_equal (fun x => N.lxor x (if (i =? 0)%nat then byte_at iv r else byte_at c2 (16 * (i - 1) + r)))) in e2. rewrite !N.lxor_assoc, !N.lxor_nilpotent, !N.lxor_0_r in e2. exact e2.
Qed.
Lemma cbc_one_text : forall key iv t1 t2 c, String.length key = 32%nat -> is_cbc key iv t1 c -> is_cbc key iv t2 c -> t1 = t2.
Proof.
  intros key iv t1 t2 c hk h1 h2. assert (L : block_count t1 = block_count t2).
  { destruct h1 as [p [n [a1 [a2 [a3 _]]]]]. destruct h2 as [p' [n' [b1 [b2 [b3 _]]]]]. destruct (counts _ _ _ a1 a2) as [_ ->]. destruct (counts _ _ _ b1 b2) as [_ ->]. lia. }
  pose proof (cbc_back key iv t1 t2 c c (block_count t1) hk h1 h2 (le_n _) ltac:(lia) (fun _ _ => eq_refl)) as E.
  destruct (pad_facts t1) as [q1 [q2 _]]. destruct (pad_facts t2) as [r1 [r2 _]]. pose proof (E (16 * block_count t1 - 1)%nat ltac:(unfold block_count; lia)) as EL. unfold padded_at in EL.
  destruct (Nat.ltb_spec (16 * block_count t1 - 1) (String.length t1)) as [x|_]; [lia|]. destruct (Nat.ltb_spec (16 * block_count t1 - 1) (String.length t2)) as [x|_]; [lia|].
  assert (EL' : String.length t1 = String.length t2) by lia. apply string_ext; [exact EL'|]. intros i hi. specialize (E i ltac:(lia)). unfold padded_at in E.
  destruct (Nat.ltb_spec i (String.length t1)); [|lia]. destruct (Nat.ltb_spec i (String.length t2)); [|lia]. exact E.
Qed.
