(** Facts about Bytes.v. *)

From Coq Require Import Ascii String Arith NArith ZArith ZifyN List Bool Lia Permutation.
From Verif Require Import Bytes.
Import ListNotations.
Local Open Scope string_scope.

Ltac Zify.zify_post_hook ::= Z.div_mod_to_equations.

(** ** Strings *)

Lemma sapp_assoc : forall a b c : string, (a ++ b) ++ c = a ++ (b ++ c).
Proof. induction a as [|x a IH]; simpl; intros; [reflexivity | now rewrite IH]. Qed.

Lemma sapp_nil_r : forall a : string, a ++ "" = a.
Proof. induction a as [|x a IH]; simpl; [reflexivity | now rewrite IH]. Qed.

Lemma slen_app : forall a b : string, String.length (a ++ b) = String.length a + String.length b.
Proof. induction a as [|x a IH]; simpl; intros; [reflexivity | now rewrite IH]. Qed.

Lemma sapp_inj_l : forall a b c : string, a ++ b = a ++ c -> b = c.
Proof. induction a as [|x a IH]; simpl; intros b c H; [assumption | injection H; auto]. Qed.

Lemma sapp_inj_len : forall a a' b b' : string,
  String.length a = String.length a' -> a ++ b = a' ++ b' -> a = a' /\ b = b'.
Proof.
  induction a as [|x a IH]; intros [|y a'] b b' Hl H; simpl in *; try discriminate.
  - now split.
  - injection H as Hxy Hr. injection Hl as Hl. destruct (IH _ _ _ Hl Hr). subst. now split.
Qed.

Lemma sall_app : forall f a b, sall f (a ++ b) = sall f a && sall f b.
Proof. induction a as [|x a IH]; simpl; intros; [reflexivity | rewrite IH; now rewrite andb_assoc]. Qed.

Lemma take_drop : forall n s, take n s ++ drop n s = s.
Proof. induction n as [|n IH]; intros [|c s]; simpl; try reflexivity. now rewrite IH. Qed.

Lemma take_length : forall n s, n <= String.length s -> String.length (take n s) = n.
Proof. induction n as [|n IH]; intros [|c s]; simpl; intros; try reflexivity; try lia. rewrite IH; lia. Qed.

Lemma take_all : forall n s, String.length s <= n -> take n s = s.
Proof. induction n as [|n IH]; intros [|c s]; simpl; intros; try reflexivity; try lia. rewrite IH; [reflexivity|lia]. Qed.

Lemma drop_length : forall n s, String.length (drop n s) = String.length s - n.
Proof. induction n as [|n IH]; intros [|c s]; simpl; try reflexivity. apply IH. Qed.

Lemma take_app : forall a b, take (String.length a) (a ++ b) = a.
Proof. induction a as [|x a IH]; intros; simpl; [reflexivity| now rewrite IH]. Qed.
Lemma drop_app : forall a b, drop (String.length a) (a ++ b) = b.
Proof. induction a as [|x a IH]; intros; simpl; [reflexivity| now rewrite IH]. Qed.

Lemma smem_In : forall k l, smem k l = true <-> In k l.
Proof.
  intros k l. unfold smem. rewrite existsb_exists. split.
  - intros [x [Hx He]]. apply String.eqb_eq in He. now subst.
  - intros H. exists k. split; [assumption | apply String.eqb_refl].
Qed.
Lemma smem_nIn : forall k l, smem k l = false <-> ~ In k l.
Proof.
  intros k l. rewrite <- smem_In. destruct (smem k l); split; intro H; try reflexivity; try discriminate.
  - now exfalso; apply H.
Qed.

(** ** Bytes *)

Lemma code_lt : forall c, (code c < 256)%N.
Proof. intros c. unfold code. apply N_ascii_bounded. Qed.
Lemma code_chr : forall n, (n < 256)%N -> code (chr n) = n.
Proof. intros n H. unfold code, chr. now apply N_ascii_embedding. Qed.
Lemma chr_code : forall c, chr (code c) = c.
Proof. intros c. unfold code, chr. apply ascii_N_embedding. Qed.
Lemma code_inj : forall a b, code a = code b -> a = b.
Proof. intros a b H. rewrite <- (chr_code a), <- (chr_code b). now rewrite H. Qed.

(** Finite sweeps. *)
Lemma sweep : forall (k : nat) (P : N -> bool),
  forallb P (map N.of_nat (seq 0 k)) = true -> forall n, (n < N.of_nat k)%N -> P n = true.
Proof.
  intros k P H n Hn. rewrite forallb_forall in H. apply H.
  apply in_map_iff. exists (N.to_nat n). split; [apply N2Nat.id|].
  apply in_seq. lia.
Qed.

Lemma ascii_sweep : forall (P : ascii -> bool),
  forallb P (map (fun n => chr (N.of_nat n)) (seq 0 256)) = true -> forall c, P c = true.
Proof.
  intros P H c. rewrite <- (chr_code c).
  apply (sweep 256 (fun n => P (chr n))); [|apply code_lt].
  rewrite forallb_forall in *. intros x Hx. apply in_map_iff in Hx. destruct Hx as [m [<- Hm]].
  apply H. apply in_map_iff. now exists m.
Qed.

(** ** Decimal *)

Lemma span_digits_app : forall s, fst (span_digits s) ++ snd (span_digits s) = s.
Proof.
  induction s as [|c s IH]; simpl; [reflexivity|].
  destruct (is_digit c); [|reflexivity].
  destruct (span_digits s) as [d r]. simpl in *. now rewrite IH.
Qed.

Lemma span_digits_digits : forall s, sall is_digit (fst (span_digits s)) = true.
Proof.
  induction s as [|c s IH]; simpl; [reflexivity|].
  destruct (is_digit c) eqn:E; [|reflexivity].
  destruct (span_digits s) as [d r]. simpl in *. now rewrite E.
Qed.

(** A string that does not start with a digit. *)
Definition nodigit (s : string) : bool := match s with "" => true | String c _ => negb (is_digit c) end.

Lemma span_digits_ends : forall s, nodigit (snd (span_digits s)) = true.
Proof.
  induction s as [|c s IH]; simpl; [reflexivity|].
  destruct (is_digit c) eqn:E; [|simpl; now rewrite E].
  destruct (span_digits s) as [d r]. exact IH.
Qed.

Lemma span_digits_exact : forall d r, sall is_digit d = true -> nodigit r = true -> span_digits (d ++ r) = (d, r).
Proof.
  induction d as [|c d IH]; simpl; intros r Hd Hr.
  - destruct r as [|c r]; [reflexivity|]. simpl in *. apply negb_true_iff in Hr. now rewrite Hr.
  - apply andb_true_iff in Hd. destruct Hd as [Hc Hd]. rewrite Hc. now rewrite IH.
Qed.

Lemma dec_val_app : forall a b n, dec_val n (a ++ b) = dec_val (dec_val n a) b.
Proof. induction a as [|c a IH]; simpl; intros; [reflexivity|apply IH]. Qed.

Lemma digit_code : forall d, (d < 10)%N -> code (chr (48 + d)) = (48 + d)%N.
Proof. intros d H. apply code_chr. lia. Qed.

Lemma is_digit_chr : forall d, (d < 10)%N -> is_digit (chr (48 + d)) = true.
Proof. intros d H. unfold is_digit. rewrite digit_code by assumption. apply andb_true_iff. split; apply N.leb_le; lia. Qed.

(** Value accumulated by a digit string in front of another. *)
Lemma dec_val_shift : forall s n, dec_val n s = (n * 10 ^ N.of_nat (String.length s) + dec_val 0 s)%N.
Proof.
  induction s as [|c s IH]; intros n.
  - simpl. lia.
  - cbn [dec_val String.length]. rewrite IH. rewrite (IH (0 * 10 + (code c - 48))%N).
    rewrite Nnat.Nat2N.inj_succ, N.pow_succ_r'. lia.
Qed.

Lemma dec_aux_val : forall fuel n acc, (n < 10 ^ N.of_nat fuel)%N -> fuel <> 0 ->
  dec_val 0 (dec_aux fuel n acc) = (n * 10 ^ N.of_nat (String.length acc) + dec_val 0 acc)%N.
Proof.
  induction fuel as [|f IH]; intros n acc Hn Hf; [congruence|].
  cbn [dec_aux].
  assert (Hm : (n mod 10 < 10)%N) by (apply N.mod_lt; lia).
  assert (Hc : dec_val 0 (String (chr (48 + n mod 10)) acc)
               = ((n mod 10) * 10 ^ N.of_nat (String.length acc) + dec_val 0 acc)%N).
  { cbn [dec_val]. rewrite digit_code by assumption. rewrite dec_val_shift.
    replace (0 * 10 + (48 + n mod 10 - 48))%N with (n mod 10)%N by (generalize (n mod 10)%N; intros; lia). reflexivity. }
  pose proof (N.div_mod n 10 ltac:(discriminate)) as Hdm.
  destruct (N.eqb_spec (n / 10) 0) as [H0|H0].
  - rewrite Hc. replace (n mod 10)%N with n; [reflexivity|]. rewrite H0 in Hdm. lia.
  - rewrite Nnat.Nat2N.inj_succ, N.pow_succ_r' in Hn.
    assert (Hf0 : f <> 0).
    { intros ->. simpl in Hn. apply H0. apply N.div_small. lia. }
    rewrite IH; [| |assumption].
    + cbn [String.length]. rewrite Nnat.Nat2N.inj_succ, N.pow_succ_r'. rewrite Hc.
      rewrite Hdm at 3. generalize (n / 10)%N (n mod 10)%N (10 ^ N.of_nat (String.length acc))%N. intros. lia.
    + apply N.div_lt_upper_bound; lia.
Qed.

Lemma N_size_bound : forall n, (n < 10 ^ N.of_nat (S (N.size_nat n)))%N.
Proof.
  intros n.
  assert (H2 : (n < 2 ^ N.of_nat (S (N.size_nat n)))%N).
  { destruct n as [|p]; [reflexivity|]. cbn [N.size_nat].
    assert (H : (N.pos p < 2 ^ N.of_nat (Pos.size_nat p))%N).
    { induction p as [p IH|p IH|]; cbn [Pos.size_nat]; rewrite Nnat.Nat2N.inj_succ, N.pow_succ_r'.
      - change (N.pos p~1) with (2 * N.pos p + 1)%N. lia.
      - change (N.pos p~0) with (2 * N.pos p)%N. lia.
      - simpl. lia. }
    rewrite Nnat.Nat2N.inj_succ, N.pow_succ_r'. lia. }
  eapply N.lt_le_trans; [exact H2|]. apply N.pow_le_mono_l. lia.
Qed.

Lemma dec_of_N_val : forall n, dec_val 0 (dec_of_N n) = n.
Proof.
  intros n. unfold dec_of_N. rewrite dec_aux_val; [|apply N_size_bound|discriminate]. simpl. lia.
Qed.

Lemma dec_of_N_inj : forall n m, dec_of_N n = dec_of_N m -> n = m.
Proof. intros n m H. rewrite <- (dec_of_N_val n), <- (dec_of_N_val m). now rewrite H. Qed.

Lemma dec_aux_digits : forall fuel n acc, sall is_digit acc = true -> sall is_digit (dec_aux fuel n acc) = true.
Proof.
  induction fuel as [|f IH]; intros n acc Ha; [assumption|]. cbn [dec_aux].
  assert (Hc : sall is_digit (String (chr (48 + n mod 10)) acc) = true).
  { cbn [sall]. rewrite Ha, is_digit_chr; [reflexivity|]. apply N.mod_lt. lia. }
  destruct (n / 10 =? 0)%N; [assumption|]. now apply IH.
Qed.
Lemma dec_of_N_digits : forall n, sall is_digit (dec_of_N n) = true.
Proof. intros n. unfold dec_of_N. now apply dec_aux_digits. Qed.

(** First digit: zero only for the number zero. *)
Definition no_leading_zero (s : string) : bool :=
  match s with
  | "" => false
  | String c "" => is_digit c
  | String c r => is_digit c && negb (code c =? 48)%N && sall is_digit r
  end.

Lemma dec_aux_head : forall fuel n acc, (n < 10 ^ N.of_nat fuel)%N -> n <> 0%N ->
  exists c r, dec_aux fuel n acc = String c r /\ code c <> 48%N.
Proof.
  induction fuel as [|f IH]; intros n acc Hn H0.
  - simpl in Hn. lia.
  - cbn [dec_aux]. destruct (N.eqb_spec (n / 10) 0) as [Hd|Hd].
    + eexists _, _. split; [reflexivity|]. rewrite digit_code by (apply N.mod_lt; lia). lia.
    + apply IH; [|assumption]. rewrite Nnat.Nat2N.inj_succ, N.pow_succ_r' in Hn.
      apply N.div_lt_upper_bound; lia.
Qed.

Lemma dec_of_N_form : forall n, no_leading_zero (dec_of_N n) = true.
Proof.
  intros n. destruct (N.eq_dec n 0) as [->|H0]; [reflexivity|].
  pose proof (dec_of_N_digits n) as Hd. unfold dec_of_N in *.
  destruct (dec_aux_head (S (N.size_nat n)) n "" (N_size_bound n) H0) as [c [r [He Hc]]].
  rewrite He in *. cbn [sall] in Hd. apply andb_true_iff in Hd. destruct Hd as [Hc' Hr].
  cbn [no_leading_zero]. destruct r as [|c2 r2]; [assumption|].
  rewrite Hc', Hr. apply N.eqb_neq in Hc. now rewrite Hc.
Qed.

(** ** Hex *)

Lemma hexval_hexdig : forall n, (n < 16)%N -> hexval (hexdig n) = Some n.
Proof.
  intros n Hn.
  pose proof (sweep 16 (fun n => match hexval (hexdig n) with Some m => (m =? n)%N | None => false end) ltac:(vm_compute; reflexivity) n Hn) as H.
  simpl in H. destruct (hexval (hexdig n)); [|discriminate]. apply N.eqb_eq in H. now subst.
Qed.

Lemma hex_decode_encode : forall s, hex_decode (hex_encode s) = Some s.
Proof.
  induction s as [|c s IH]; [reflexivity|]. cbn [hex_encode hex_decode].
  pose proof (code_lt c).
  rewrite !hexval_hexdig; [|apply N.mod_lt; lia|apply N.div_lt_upper_bound; lia].
  rewrite IH. do 2 f_equal. rewrite <- (chr_code c) at 3. f_equal. lia.
Qed.

(** ** Association lists *)

Lemma map_get_insert_same : forall V k (v : V) m, map_get k (map_insert k v m) = Some v.
Proof.
  induction m as [|[k' v'] m IH]; simpl.
  - now rewrite String.eqb_refl.
  - destruct (String.eqb k k') eqn:E; simpl.
    + now rewrite String.eqb_refl.
    + now rewrite E.
Qed.

Lemma map_get_insert_other : forall V k k' (v : V) m, k' <> k -> map_get k' (map_insert k v m) = map_get k' m.
Proof.
  intros V k k' v m Hne. induction m as [|[k2 v2] m IH]; simpl.
  - apply String.eqb_neq in Hne. now rewrite Hne.
  - destruct (String.eqb k k2) eqn:E; simpl.
    + apply String.eqb_eq in E. subst. apply String.eqb_neq in Hne. now rewrite Hne.
    + destruct (String.eqb k' k2); [reflexivity|assumption].
Qed.

Lemma map_insert_keys : forall V k (v : V) m x, In x (keys (map_insert k v m)) <-> x = k \/ In x (keys m).
Proof.
  intros V k v m x. induction m as [|[k' v'] m IH]; simpl.
  - intuition.
  - destruct (String.eqb k k') eqn:E; simpl.
    + apply String.eqb_eq in E. subst. intuition.
    + rewrite IH. intuition.
Qed.

Lemma map_insert_NoDup : forall V k (v : V) m, NoDup (keys m) -> NoDup (keys (map_insert k v m)).
Proof.
  intros V k v m. induction m as [|[k' v'] m IH]; simpl; intros H.
  - repeat constructor. intros [].
  - inversion H as [|x l Hn Hd]; subst. destruct (String.eqb k k') eqn:E; simpl.
    + apply String.eqb_eq in E. subst. now constructor.
    + constructor; [|now apply IH]. intros Hin. apply map_insert_keys in Hin. destruct Hin as [->|Hin].
      * now rewrite String.eqb_refl in E.
      * contradiction.
Qed.

Lemma map_insert_fresh : forall V k (v : V) m, ~ In k (keys m) -> map_insert k v m = (m ++ [(k, v)])%list.
Proof.
  intros V k v m. induction m as [|[k' v'] m IH]; simpl; intros H; [reflexivity|].
  destruct (String.eqb k k') eqn:E.
  - apply String.eqb_eq in E. subst. exfalso. apply H. now left.
  - rewrite IH; [reflexivity|]. intros Hin. apply H. now right.
Qed.

Lemma map_of_entries_snoc : forall V (es : list (string * V)) k v,
  map_of_entries (es ++ [(k, v)]) = map_insert k v (map_of_entries es).
Proof. intros. unfold map_of_entries. now rewrite fold_left_app. Qed.

(** Entries with distinct keys are kept as they are. *)
Lemma map_of_entries_nodup : forall V (es : list (string * V)), NoDup (keys es) -> map_of_entries es = es.
Proof.
  intros V es. induction es as [|[k v] es IH] using rev_ind; [reflexivity|].
  intros H. unfold keys in *. rewrite map_app in H. simpl in H.
  apply NoDup_remove in H. rewrite app_nil_r in H. destruct H as [H1 H2].
  rewrite map_of_entries_snoc, IH by assumption. now apply map_insert_fresh.
Qed.

Lemma map_of_entries_NoDup : forall V (es : list (string * V)), NoDup (keys (map_of_entries es)).
Proof.
  intros V es. induction es as [|[k v] es IH] using rev_ind; [constructor|].
  rewrite map_of_entries_snoc. now apply map_insert_NoDup.
Qed.

Lemma map_get_In : forall V k (v : V) m, map_get k m = Some v -> In (k, v) m.
Proof.
  induction m as [|[k' v'] m IH]; simpl; [discriminate|].
  destruct (String.eqb k k') eqn:E; intros H.
  - apply String.eqb_eq in E. injection H as ->. subst. now left.
  - right. now apply IH.
Qed.

Lemma map_get_None : forall V k (m : list (string * V)), map_get k m = None <-> ~ In k (keys m).
Proof.
  induction m as [|[k' v'] m IH]; simpl; [intuition|].
  destruct (String.eqb k k') eqn:E.
  - apply String.eqb_eq in E. subst. split; [discriminate|]. intros H. exfalso. apply H. now left.
  - apply String.eqb_neq in E. rewrite IH. intuition.
Qed.

Lemma In_map_get : forall V k (v : V) m, NoDup (keys m) -> In (k, v) m -> map_get k m = Some v.
Proof.
  induction m as [|[k' v'] m IH]; simpl; intros Hd Hi; [contradiction|].
  inversion Hd as [|x l Hn Hd']; subst. destruct Hi as [He|Hi].
  - injection He as -> ->. now rewrite String.eqb_refl.
  - destruct (String.eqb k k') eqn:E; [|now apply IH].
    apply String.eqb_eq in E. subst. exfalso. apply Hn. apply in_map_iff. now exists (k', v).
Qed.

Lemma map_get_perm : forall V (m m' : list (string * V)), NoDup (keys m) -> Permutation m m' ->
  forall k, map_get k m = map_get k m'.
Proof.
  intros V m m' Hd Hp k.
  assert (Hd' : NoDup (keys m')) by (eapply Permutation_NoDup; [apply Permutation_map; exact Hp | exact Hd]).
  destruct (map_get k m) as [v|] eqn:E.
  - apply map_get_In in E. symmetry. apply In_map_get; [assumption|]. eapply Permutation_in; eassumption.
  - symmetry. apply map_get_None in E. apply map_get_None. intros Hin. apply E.
    eapply Permutation_in; [apply Permutation_sym, Permutation_map; exact Hp | exact Hin].
Qed.

(** ** Lists of options *)

Lemma all_some_map : forall A B (f : A -> option B) l, all_some (map f l) = Some [] -> l = [].
Proof.
  intros A B f [|a l]; simpl; [reflexivity|]. destruct (f a); [|discriminate].
  destruct (all_some (map f l)); discriminate.
Qed.

Lemma all_some_total : forall A B (f : A -> option B) (g : A -> B) l,
  (forall a, In a l -> f a = Some (g a)) -> all_some (map f l) = Some (map g l).
Proof.
  induction l as [|a l IH]; simpl; intros H; [reflexivity|].
  rewrite (H a (or_introl eq_refl)). rewrite IH; [reflexivity|]. intros b Hb. apply H. now right.
Qed.

Lemma all_some_Forall2 : forall A B (f : A -> option B) l r,
  all_some (map f l) = Some r <-> Forall2 (fun a b => f a = Some b) l r.
Proof.
  induction l as [|a l IH]; simpl; intros r.
  - split; intros H; [injection H as <-; constructor | inversion H; reflexivity].
  - split; intros H.
    + destruct (f a) as [b|] eqn:E; [|discriminate].
      destruct (all_some (map f l)) as [r'|] eqn:E'; [|discriminate].
      injection H as <-. constructor; [assumption|]. now apply IH.
    + inversion H as [|x b l' r' H1 H2]; subst. rewrite H1.
      apply IH in H2. now rewrite H2.
Qed.

Lemma all_some_app : forall A (l1 l2 : list (option A)),
  all_some (l1 ++ l2) =
  match all_some l1, all_some l2 with Some a, Some b => Some (a ++ b)%list | _, _ => None end.
Proof.
  induction l1 as [|[a|] l1 IH]; simpl; intros l2.
  - destruct (all_some l2); reflexivity.
  - rewrite IH. destruct (all_some l1); [|reflexivity]. destruct (all_some l2); reflexivity.
  - reflexivity.
Qed.

(** ** Results *)

Lemma rbind_ok : forall A B (x : res A) (f : A -> res B) b,
  rbind x f = Ok b -> exists a, x = Ok a /\ f a = Ok b.
Proof. intros A B [a|e|] f b H; simpl in H; try discriminate. now exists a. Qed.

Lemma obind_some : forall A B (x : option A) (f : A -> option B) b,
  obind x f = Some b -> exists a, x = Some a /\ f a = Some b.
Proof. intros A B [a|] f b H; simpl in H; try discriminate. now exists a. Qed.

Lemma some_inj : forall A (a b : A), Some a = Some b -> a = b.
Proof. intros A a b H. now injection H. Qed.
