(** Facts about Value.v: [vof] produces canonical trees and leaves canonical trees alone. *)

From Coq Require Import Ascii String Arith NArith ZArith ZifyN List Bool Lia Permutation Sorted.
From Verif Require Import Bytes Utf8 Json Value BytesFacts Utf8Facts JsonFacts.
Import ListNotations.
Local Open Scope string_scope.

Ltac Zify.zify_post_hook ::= Z.div_mod_to_equations.

(** What is assumed of the environment of deserialisation: [fnorm] prints floats (a number token with a fraction or an
    exponent, never an integer token), and [hord] only reorders. *)
Definition drt_ok (R : drt) : Prop :=
  (forall t t', numtok t -> fnorm R t = Some t' -> numtok t' /\ tok_int t' = None) /\
  (forall V (l : list (string * V)), Permutation (hord R V l) l).

(** ** Order of keys *)

Definition slt (a b : string) : Prop := String.compare a b = Lt.

Lemma ascii_compare_eq : forall a b, Ascii.compare a b = Eq <-> a = b.
Proof.
  intros a b. unfold Ascii.compare. rewrite N.compare_eq_iff. split; [|now intros ->].
  intros H. rewrite <- (ascii_N_embedding a), <- (ascii_N_embedding b). now rewrite H.
Qed.

Lemma compare_refl : forall a, String.compare a a = Eq.
Proof.
  induction a as [|c a IH]; [reflexivity|]. simpl. replace (Ascii.compare c c) with Eq; [assumption|].
  symmetry. now apply ascii_compare_eq.
Qed.
Lemma compare_eq : forall a b, String.compare a b = Eq -> a = b.
Proof.
  induction a as [|c a IH]; intros [|d b] H; simpl in H; try discriminate; [reflexivity|].
  destruct (Ascii.compare c d) eqn:E; try discriminate. apply ascii_compare_eq in E. subst. f_equal. now apply IH.
Qed.
Lemma compare_gt : forall a b, String.compare a b = Gt -> slt b a.
Proof.
  unfold slt. induction a as [|c a IH]; intros [|d b] H; simpl in *; try discriminate; try reflexivity.
  unfold Ascii.compare in *. rewrite (N.compare_antisym (N_of_ascii c) (N_of_ascii d)).
  destruct (N_of_ascii c ?= N_of_ascii d)%N; simpl; try discriminate; [now apply IH|reflexivity].
Qed.
Lemma slt_trans : forall a b c, slt a b -> slt b c -> slt a c.
Proof.
  unfold slt. induction a as [|x a IH]; intros [|y b] [|z c] H1 H2; simpl in *; try discriminate; try reflexivity.
  unfold Ascii.compare in *.
  destruct (N.compare_spec (N_of_ascii x) (N_of_ascii y)) as [E1|E1|E1]; try discriminate;
    destruct (N.compare_spec (N_of_ascii y) (N_of_ascii z)) as [E2|E2|E2]; try discriminate.
  - rewrite E1, E2, N.compare_refl. eapply IH; eassumption.
  - rewrite E1. apply N.compare_lt_iff in E2. now rewrite E2.
  - rewrite <- E2. apply N.compare_lt_iff in E1. now rewrite E1.
  - assert (E3 : (N_of_ascii x < N_of_ascii z)%N) by lia. apply N.compare_lt_iff in E3. now rewrite E3.
Qed.
Lemma slt_irrefl : forall a, ~ slt a a.
Proof. intros a H. unfold slt in H. rewrite compare_refl in H. discriminate. Qed.

Definition sorted_keys {V} (l : list (string * V)) : Prop := StronglySorted slt (keys l).

Lemma sorted_NoDup : forall V (l : list (string * V)), sorted_keys l -> NoDup (keys l).
Proof.
  unfold sorted_keys. intros V l. induction (keys l) as [|k ks IH]; intros H; [constructor|].
  inversion H as [|x y H1 H2]; subst. constructor; [|now apply IH]. intros Hin.
  rewrite Forall_forall in H2. eapply slt_irrefl. apply H2. exact Hin.
Qed.

Lemma bt_insert_keys : forall V k (v : V) m x, In x (keys (bt_insert k v m)) <-> x = k \/ In x (keys m).
Proof.
  intros V k v m x. induction m as [|[k' v'] m IH]; simpl; [intuition|].
  destruct (String.compare k k') eqn:E; simpl.
  - apply compare_eq in E. subst. intuition.
  - intuition.
  - rewrite IH. intuition.
Qed.

Lemma bt_insert_sorted : forall V k (v : V) m, sorted_keys m -> sorted_keys (bt_insert k v m).
Proof.
  unfold sorted_keys. intros V k v m. induction m as [|[k' v'] m IH]; simpl; intros H.
  - repeat constructor.
  - inversion H as [|x y H1 H2]; subst. destruct (String.compare k k') eqn:E; simpl.
    + apply compare_eq in E. subst. now constructor.
    + constructor; [assumption|]. constructor; [exact E|]. rewrite Forall_forall in *. intros z Hz.
      eapply slt_trans; [exact E|]. now apply H2.
    + apply compare_gt in E. constructor; [now apply IH|]. rewrite Forall_forall in *. intros z Hz.
      apply bt_insert_keys in Hz. destruct Hz as [->|Hz]; [assumption|now apply H2].
Qed.

Lemma bt_of_entries_snoc : forall V (es : list (string * V)) k v,
  bt_of_entries (es ++ [(k, v)]) = bt_insert k v (bt_of_entries es).
Proof. intros. unfold bt_of_entries. now rewrite fold_left_app. Qed.

Lemma bt_of_entries_sorted : forall V (es : list (string * V)), sorted_keys (bt_of_entries es).
Proof.
  intros V es. induction es as [|[k v] es IH] using rev_ind; [constructor|].
  rewrite bt_of_entries_snoc. now apply bt_insert_sorted.
Qed.

(** Inserting after all others appends. *)
Lemma bt_insert_last : forall V k (v : V) m, Forall (fun k' => slt k' k) (keys m) -> bt_insert k v m = (m ++ [(k, v)])%list.
Proof.
  intros V k v m. induction m as [|[k' v'] m IH]; simpl; intros H; [reflexivity|].
  inversion H as [|x y H1 H2]; subst. destruct (String.compare k k') eqn:E.
  - apply compare_eq in E. subst. now apply slt_irrefl in H1.
  - exfalso. eapply slt_irrefl. eapply slt_trans; [exact E|exact H1].
  - now rewrite IH.
Qed.

Lemma sorted_app_last : forall (l : list string) k, StronglySorted slt (l ++ [k]) ->
  StronglySorted slt l /\ Forall (fun k' => slt k' k) l.
Proof.
  induction l as [|x l IH]; simpl; intros k H; [split; constructor|].
  inversion H as [|y z H1 H2]; subst. destruct (IH _ H1) as [H3 H4]. rewrite Forall_app in H2. destruct H2 as [H5 H6].
  split; constructor; try assumption. now inversion H6.
Qed.

Lemma bt_of_sorted : forall V (es : list (string * V)), sorted_keys es -> bt_of_entries es = es.
Proof.
  unfold sorted_keys. intros V es. induction es as [|[k v] es IH] using rev_ind; [reflexivity|].
  unfold keys. rewrite map_app. intros H. apply sorted_app_last in H. destruct H as [H1 H2].
  rewrite bt_of_entries_snoc, IH by assumption. now apply bt_insert_last.
Qed.

(** Lookup: the last entry wins. *)
Lemma bt_insert_get_same : forall V k (v : V) m, map_get k (bt_insert k v m) = Some v.
Proof.
  induction m as [|[k' v'] m IH]; simpl.
  - now rewrite String.eqb_refl.
  - destruct (String.compare k k') eqn:E; simpl.
    + now rewrite String.eqb_refl.
    + now rewrite String.eqb_refl.
    + destruct (String.eqb_spec k k') as [->|]; [rewrite compare_refl in E; discriminate|assumption].
Qed.
Lemma bt_insert_get_other : forall V k k' (v : V) m, k' <> k -> map_get k' (bt_insert k v m) = map_get k' m.
Proof.
  intros V k k' v m Hne. apply String.eqb_neq in Hne. induction m as [|[k2 v2] m IH]; simpl.
  - now rewrite Hne.
  - destruct (String.compare k k2) eqn:E; simpl.
    + apply compare_eq in E. subst. now rewrite Hne.
    + now rewrite Hne.
    + destruct (String.eqb k' k2); [reflexivity|assumption].
Qed.

(** The last value given to a key. *)
Definition last_get {V} (k : string) (es : list (string * V)) : option V := map_get k (rev es).

Lemma bt_of_entries_get : forall V (es : list (string * V)) k, map_get k (bt_of_entries es) = last_get k es.
Proof.
  intros V es k. unfold last_get. induction es as [|[k' v'] es IH] using rev_ind; [reflexivity|].
  rewrite bt_of_entries_snoc, rev_app_distr. simpl. destruct (String.eqb_spec k k') as [->|Hne].
  - apply bt_insert_get_same.
  - now rewrite bt_insert_get_other.
Qed.

Lemma bt_insert_In : forall V k (v : V) m x, In x (bt_insert k v m) -> x = (k, v) \/ In x m.
Proof.
  intros V k v m x. induction m as [|[k' v'] m IH]; simpl; [intuition|].
  destruct (String.compare k k'); simpl; intuition.
Qed.
Lemma bt_of_entries_In : forall V (es : list (string * V)) x, In x (bt_of_entries es) -> In x es.
Proof.
  intros V es x. induction es as [|[k v] es IH] using rev_ind; [intros []|].
  rewrite bt_of_entries_snoc. intros H. apply bt_insert_In in H. apply in_or_app. simpl. intuition.
Qed.

(** ** Canonical trees *)

(** Object members sorted, everywhere. *)
Fixpoint osorted (j : json) : Prop :=
  match j with
  | JArr l => (fix go l := match l with [] => True | x :: r => osorted x /\ go r end) l
  | JObj l => sorted_keys l /\ (fix go l := match l with [] => True | x :: r => osorted (snd x) /\ go r end) l
  | _ => True
  end.
Lemma osorted_arr : forall l, osorted (JArr l) <-> Forall osorted l.
Proof.
  induction l as [|x l IH]; [split; constructor|]. simpl in *. rewrite IH. split.
  - intros [H1 H2]. now constructor.
  - intros H. inversion H. now split.
Qed.
Lemma osorted_obj : forall l, osorted (JObj l) <-> sorted_keys l /\ Forall (fun kv => osorted (snd kv)) l.
Proof.
  intros l. simpl. split; intros [H1 H2]; split; try assumption; clear H1.
  - induction l as [|x l IH]; constructor; [tauto|]. apply IH. tauto.
  - induction l as [|x l IH]; [exact I|]. inversion H2. split; [assumption|]. now apply IH.
Qed.

(** Every number token is the text of the number it denotes, and no object stands for a raw value. *)
Fixpoint nums_stable (R : drt) (j : json) : Prop :=
  match j with
  | JNum t => vnum R t = Some t
  | JArr l => (fix go l := match l with [] => True | x :: r => nums_stable R x /\ go r end) l
  | JObj l => raw_member l = None /\ (fix go l := match l with [] => True | x :: r => nums_stable R (snd x) /\ go r end) l
  | _ => True
  end.
Lemma nums_stable_arr : forall R l, nums_stable R (JArr l) <-> Forall (nums_stable R) l.
Proof.
  induction l as [|x l IH]; [split; constructor|]. simpl in *. rewrite IH. split.
  - intros [H1 H2]. now constructor.
  - intros H. inversion H. now split.
Qed.
Lemma nums_stable_obj : forall R l, nums_stable R (JObj l) <-> raw_member l = None /\ Forall (fun kv => nums_stable R (snd kv)) l.
Proof.
  intros R l. cbn [nums_stable]. assert (G : forall l : list (string * json),
    (fix go l := match l with [] => True | x :: r => nums_stable R (snd x) /\ go r end) l <-> Forall (fun kv => nums_stable R (snd kv)) l).
  { clear l. induction l as [|x l IH]; [split; constructor|]. simpl in *. rewrite IH. split.
    - intros [H1 H2]. now constructor.
    - intros H. inversion H. now split. }
  now rewrite G.
Qed.

(** ** Texts inside texts *)

Lemma fold_max_le : forall l d, fold_right Nat.max 0 l <= d <-> Forall (fun x => x <= d) l.
Proof.
  induction l as [|x l IH]; simpl; intros d; [split; [constructor|lia]|].
  rewrite Nat.max_lub_iff, IH. split; [intros [H1 H2]; now constructor|intros H; inversion H; now split].
Qed.
Lemma longest_arr : forall l d, longest (JArr l) <= d <-> Forall (fun x => longest x <= d) l.
Proof. intros l d. cbn [longest]. now rewrite fold_max_le, Forall_map. Qed.
Lemma longest_obj : forall l d, longest (JObj l) <= d <-> Forall (fun kv => longest (snd kv) <= d) l.
Proof. intros l d. cbn [longest]. now rewrite fold_max_le, Forall_map. Qed.

(** A string inside a document is shorter than the document. *)
Lemma parse_longest_aux : forall n,
  (forall s j r, pval n s = Some (j, r) -> longest j < String.length s) /\
  (forall s l r, pelems n s = Some (l, r) -> Forall (fun x => longest x < String.length s) l) /\
  (forall s l r, pmembers n s = Some (l, r) -> Forall (fun kv => longest (snd kv) < String.length s) l).
Proof.
  induction n as [|n [IHv [IHe IHm]]]; [split; [|split]; intros; discriminate|]. split; [|split].
  - intros s j r H. cbn [pval] in H. pose proof (skip_ws_len s) as LS. destruct (skip_ws s) as [|c s']; [discriminate|]. cbn [String.length] in LS.
    destruct (code c =? 110)%N; [destruct (strip "ull" s'); [injection H as <- <-; cbn; lia|discriminate]|].
    destruct (code c =? 116)%N; [destruct (strip "rue" s'); [injection H as <- <-; cbn; lia|discriminate]|].
    destruct (code c =? 102)%N; [destruct (strip "alse" s'); [injection H as <- <-; cbn; lia|discriminate]|].
    destruct (code c =? 34)%N.
    { destruct (pstr s') as [[[e t] r']|] eqn:E; [|discriminate]. injection H as <- <-. apply pstr_text_len in E. cbn [longest]. lia. }
    destruct (code c =? 91)%N.
    { pose proof (skip_ws_len s') as LS'. destruct (skip_ws s') as [|d r']; [discriminate|]. destruct (code d =? 93)%N; [injection H as <- <-; cbn; lia|].
      destruct (pelems n (String d r')) as [[l r2]|] eqn:E; [|discriminate]. injection H as <- <-.
      apply IHe in E. enough (G : longest (JArr l) <= String.length s') by lia. apply longest_arr. eapply Forall_impl; [|exact E]. cbn beta. intros x. lia. }
    destruct (code c =? 123)%N.
    { pose proof (skip_ws_len s') as LS'. destruct (skip_ws s') as [|d r']; [discriminate|]. destruct (code d =? 125)%N; [injection H as <- <-; cbn; lia|].
      destruct (pmembers n (String d r')) as [[l r2]|] eqn:E; [|discriminate]. injection H as <- <-.
      apply IHm in E. enough (G : longest (JObj l) <= String.length s') by lia. apply longest_obj. eapply Forall_impl; [|exact E]. cbn beta. intros x. lia. }
    destruct (lex_num (String c s')) as [[t r']|] eqn:E; [|discriminate]. injection H as <- <-. cbn [longest]. lia.
  - intros s l r H. cbn [pelems] in H. destruct (pval n s) as [[j r1]|] eqn:Ev; [|discriminate].
    pose proof (proj1 (parse_fuel n) _ _ _ Ev) as [LV _]. apply IHv in Ev. pose proof (skip_ws_len r1) as L1. destruct (skip_ws r1) as [|d r']; [discriminate|]. cbn [String.length] in L1.
    destruct (code d =? 93)%N; [injection H as <- <-; now repeat constructor|].
    destruct (code d =? 44)%N; [|discriminate].
    destruct (pelems n r') as [[l' r2]|] eqn:E; [|discriminate]. injection H as <- <-. constructor; [assumption|].
    apply IHe in E. eapply Forall_impl; [|exact E]. cbn beta. intros x. lia.
  - intros s l r H. cbn [pmembers] in H. pose proof (skip_ws_len s) as LS. destruct (skip_ws s) as [|c s']; [discriminate|]. cbn [String.length] in LS.
    destruct (code c =? 34)%N; [|discriminate]. destruct (pstr s') as [[[e k] r1]|] eqn:EK; [|discriminate]. apply pstr_len in EK.
    pose proof (skip_ws_len r1) as L1. destruct (skip_ws r1) as [|d r2]; [discriminate|]. cbn [String.length] in L1. destruct (code d =? 58)%N; [|discriminate].
    destruct (pval n r2) as [[j r3]|] eqn:Ev; [|discriminate]. pose proof (proj1 (parse_fuel n) _ _ _ Ev) as [LV _]. apply IHv in Ev.
    pose proof (skip_ws_len r3) as L3. destruct (skip_ws r3) as [|d2 r']; [discriminate|]. cbn [String.length] in L3.
    destruct (code d2 =? 125)%N; [injection H as <- <-; constructor; [cbn [snd]; lia|constructor]|].
    destruct (code d2 =? 44)%N; [|discriminate].
    destruct (pmembers n r') as [[l' r5]|] eqn:E; [|discriminate]. injection H as <- <-. constructor; [cbn [snd]; lia|].
    apply IHm in E. eapply Forall_impl; [|exact E]. cbn beta. intros x. lia.
Qed.
Lemma parse_longest : forall s j, parse s = Some j -> longest j < String.length s.
Proof.
  intros s j H. unfold parse in H. destruct (pval _ s) as [[j' r]|] eqn:E; [|discriminate].
  destruct (skip_ws r); [|discriminate]. injection H as <-. eapply parse_longest_aux; eassumption.
Qed.

Lemma raw_member_some : forall l s, raw_member l = Some (Some s) -> exists e, l = [(raw_token, JStr e s)].
Proof.
  intros [|[k v] r] s H; [discriminate|]. unfold raw_member in H. destruct (String.eqb_spec k raw_token) as [->|]; [|discriminate].
  destruct v as [| | |e s'| |]; try discriminate. destruct r; [|discriminate]. injection H as ->. now exists e.
Qed.
Lemma raw_member_longest : forall l s, raw_member l = Some (Some s) -> longest (JObj l) = String.length s.
Proof. intros l s H. apply raw_member_some in H. destruct H as [e ->]. cbn. apply Nat.max_0_r. Qed.

(** Induction over trees and the texts inside them. *)
Lemma json_raw_ind : forall P : json -> Prop,
  P JNull -> (forall b, P (JBool b)) -> (forall t, P (JNum t)) -> (forall e s, P (JStr e s)) ->
  (forall l, Forall P l -> P (JArr l)) ->
  (forall l, Forall (fun kv => P (snd kv)) l -> (forall s j, raw_member l = Some (Some s) -> parse s = Some j -> P j) -> P (JObj l)) ->
  forall j, P j.
Proof.
  intros P H1 H2 H3 H4 H5 H6. assert (G : forall n j, longest j < n -> P j).
  { induction n as [|n IHn]; [lia|]. induction j as [| | | |l IH|l IH] using json_rect2; intros HL; auto.
    - apply H5. assert (G : longest (JArr l) <= n) by lia. apply longest_arr in G. rewrite Forall_forall in *. intros x Hx. apply IH; [exact Hx|].
      specialize (G x Hx). lia.
    - apply H6.
      + assert (G : longest (JObj l) <= n) by lia. apply longest_obj in G. rewrite Forall_forall in *. intros x Hx. apply IH; [exact Hx|].
        specialize (G x Hx). cbn beta in G. lia.
      + intros s j HM HP. apply IHn. rewrite (raw_member_longest _ _ HM) in HL. apply parse_longest in HP. lia. }
  intros j. apply (G (S (longest j))). lia.
Qed.

(** More fuel makes no difference. *)
Lemma vof_n_arr : forall n R l, vof_n n R (JArr l) = option_map JArr (all_some (map (vof_n n R) l)).
Proof. intros [|n] R l; reflexivity. Qed.
Lemma vof_n_obj : forall n R l, vof_n n R (JObj l) =
  match raw_member l with
  | None => option_map (fun es => JObj (bt_of_entries es)) (all_some (map (fun kv => okv (fst kv) (vof_n n R (snd kv))) l))
  | Some None => None
  | Some (Some s) =>
      match n, parse s with
      | S n', Some j' => if (depth j' <=? max_depth)%nat then vof_n n' R j' else None
      | _, _ => None
      end
  end.
Proof. intros [|n] R l; reflexivity. Qed.
Lemma vof_n_eq : forall R j n, longest j <= n -> vof_n n R j = vof R j.
Proof.
  intros R. assert (G : forall j n m, longest j <= n -> longest j <= m -> vof_n n R j = vof_n m R j).
  { apply (json_raw_ind (fun j => forall n m, longest j <= n -> longest j <= m -> vof_n n R j = vof_n m R j)).
    - intros [|n] [|m]; reflexivity.
    - intros b [|n] [|m]; reflexivity.
    - intros t [|n] [|m]; reflexivity.
    - intros e s [|n] [|m]; reflexivity.
    - intros l IH n m Hn Hm. apply longest_arr in Hn, Hm.
      assert (E : map (vof_n n R) l = map (vof_n m R) l).
      { apply map_ext_in. intros x Hx. rewrite Forall_forall in *. apply IH; auto. }
      now rewrite !vof_n_arr, E.
    - intros l IH IR n m Hn Hm. pose proof Hn as Hn'. pose proof Hm as Hm'. apply longest_obj in Hn', Hm'.
      assert (E : map (fun kv => okv (fst kv) (vof_n n R (snd kv))) l = map (fun kv => okv (fst kv) (vof_n m R (snd kv))) l).
      { apply map_ext_in. intros x Hx. rewrite Forall_forall in *. now rewrite (IH x Hx n m (Hn' x Hx) (Hm' x Hx)). }
      destruct (raw_member l) as [[s|]|] eqn:EM.
      + rewrite (raw_member_longest _ _ EM) in *.
        assert (F : forall k, String.length s <= k -> vof_n k R (JObj l) =
          match parse s with Some j' => if (depth j' <=? max_depth)%nat then vof_n (k - 1) R j' else None | None => None end).
        { intros [|k] Hk; rewrite vof_n_obj, EM.
          - destruct s; [reflexivity|cbn in Hk; lia].
          - cbn [Nat.sub]. now rewrite Nat.sub_0_r. }
        rewrite (F n Hn), (F m Hm). destruct (parse s) as [j'|] eqn:EP; [|reflexivity]. destruct (_ <=? _)%nat; [|reflexivity].
        pose proof (parse_longest s j' EP) as HL. apply (IR s j' eq_refl EP); lia.
      + now rewrite !vof_n_obj, EM.
      + now rewrite !vof_n_obj, EM, E. }
  intros j n H. apply G; [exact H|apply le_n].
Qed.

Lemma vof_null : forall R, vof R JNull = Some JNull.
Proof. reflexivity. Qed.
Lemma vof_bool : forall R b, vof R (JBool b) = Some (JBool b).
Proof. reflexivity. Qed.
Lemma vof_num : forall R t, vof R (JNum t) = option_map JNum (vnum R t).
Proof. reflexivity. Qed.
Lemma vof_str : forall R e s, vof R (JStr e s) = Some (JStr (needs_escape s) s).
Proof. intros R e [|c s]; reflexivity. Qed.
Lemma vof_arr : forall R l, vof R (JArr l) = option_map JArr (all_some (map (vof R) l)).
Proof.
  intros R l. transitivity (option_map JArr (all_some (map (vof_n (longest (JArr l)) R) l))).
  - unfold vof. apply vof_n_arr.
  - f_equal. f_equal. apply map_ext_in. intros x Hx. apply vof_n_eq.
    assert (G : longest (JArr l) <= longest (JArr l)) by apply le_n. apply longest_arr in G. rewrite Forall_forall in G. auto.
Qed.
Lemma vof_obj : forall R l, vof R (JObj l) =
  match raw_member l with
  | None => option_map (fun es => JObj (bt_of_entries es)) (all_some (map (fun kv => okv (fst kv) (vof R (snd kv))) l))
  | Some None => None
  | Some (Some s) => match parse s with Some j => value_of R max_depth j | None => None end
  end.
Proof.
  intros R l. destruct (raw_member l) as [[s|]|] eqn:EM.
  - unfold vof. rewrite (raw_member_longest _ _ EM). rewrite vof_n_obj, EM. destruct s as [|c s]; [reflexivity|]. cbn [String.length]. destruct (parse (String c s)) as [j|] eqn:EP; [|reflexivity]. unfold value_of.
    destruct (_ <=? _)%nat; [|reflexivity]. apply vof_n_eq. apply parse_longest in EP. cbn in EP. lia.
  - unfold vof. now rewrite vof_n_obj, EM.
  - transitivity (option_map (fun es => JObj (bt_of_entries es)) (all_some (map (fun kv => okv (fst kv) (vof_n (longest (JObj l)) R (snd kv))) l))).
    + unfold vof. now rewrite vof_n_obj, EM.
    + f_equal. f_equal. apply map_ext_in. intros x Hx. f_equal. apply vof_n_eq.
      assert (G : longest (JObj l) <= longest (JObj l)) by apply le_n. apply longest_obj in G. rewrite Forall_forall in G. auto.
Qed.
Lemma vof_raw : forall R l s v, raw_member l = Some (Some s) -> vof R (JObj l) = Some v ->
  exists j, parse s = Some j /\ depth j <= max_depth /\ vof R j = Some v.
Proof.
  intros R l s v HM H. rewrite vof_obj, HM in H. destruct (parse s) as [j|]; [|discriminate]. exists j. split; [reflexivity|].
  unfold value_of in H. destruct (Nat.leb_spec (depth j) max_depth); [|discriminate]. now split.
Qed.

(** A [Value] that is read back as itself: canonical, all numbers stable, no reserved name where it counts. *)
Definition canon (R : drt) (j : json) : Prop := wf_json j /\ osorted j /\ nums_stable R j.

Lemma vof_canon : forall R j, wf_json j -> osorted j -> nums_stable R j -> vof R j = Some j.
Proof.
  intros R. apply (json_rect2 (fun j => wf_json j -> osorted j -> nums_stable R j -> vof R j = Some j)).
  - reflexivity.
  - reflexivity.
  - intros t _ _ H. cbn [nums_stable] in H. now rewrite vof_num, H.
  - intros e s H _ _. rewrite vof_str. cbn in H. now subst.
  - intros l IH Hw Hs Hn. apply wf_arr in Hw. apply osorted_arr in Hs. apply nums_stable_arr in Hn.
    rewrite vof_arr. rewrite (all_some_total _ _ _ (fun x => x)); [now rewrite map_id|].
    rewrite Forall_forall in *. intros x Hx. auto.
  - intros l IH Hw Hs Hn. apply wf_obj in Hw. apply osorted_obj in Hs. apply nums_stable_obj in Hn. destruct Hs as [Hk Hs], Hn as [HM Hn].
    rewrite vof_obj, HM. rewrite (all_some_total _ _ _ (fun x => x)).
    + rewrite map_id. simpl. now rewrite bt_of_sorted.
    + rewrite Forall_forall in *. intros [k x] Hx.
      pose proof (IH _ Hx (Hw _ Hx) (Hs _ Hx) (Hn _ Hx)) as Hv. simpl in *. now rewrite Hv.
Qed.

Lemma vnum_numtok : forall R t t', drt_ok R -> numtok t -> vnum R t = Some t' -> numtok t'.
Proof.
  intros R t t' [HR _] Ht H. unfold vnum in H.
  destruct (tok_int t) as [[[] d]|]; [| |exact (proj1 (HR _ _ Ht H))];
    repeat match type of H with context [if ?b then _ else _] => destruct b end;
    try (injection H as <-; assumption); exact (proj1 (HR _ _ Ht H)).
Qed.

Lemma Forall2_all : forall A B (P : A -> Prop) (Q : B -> Prop) (S : A -> B -> Prop) l r,
  (forall a b, In a l -> P a -> S a b -> Q b) -> Forall P l -> Forall2 S l r -> Forall Q r.
Proof.
  intros A B P Q S l r H HP HS. induction HS as [|a b l r Hab HS IH]; [constructor|].
  inversion HP as [|x y H1 H2]; subst. constructor; [eapply H; [left; reflexivity|eassumption|eassumption]|].
  apply IH; [|assumption]. intros a' b' Ha' HPa HSab. eapply H; [right; exact Ha'|exact HPa|exact HSab].
Qed.

Lemma okv_some : forall A k (o : option A) kv, okv k o = Some kv -> fst kv = k /\ o = Some (snd kv).
Proof. intros A k [v|] kv H; [|discriminate]. injection H as <-. now split. Qed.

Lemma vof_wf : forall R, drt_ok R -> forall j v, num_wf j -> vof R j = Some v -> wf_json v.
Proof.
  intros R HR. apply (json_raw_ind (fun j => forall v, num_wf j -> vof R j = Some v -> wf_json v)).
  - intros v _ H. injection H as <-. exact I.
  - intros b v _ H. injection H as <-. exact I.
  - intros t v Hn H. rewrite vof_num in H. destruct (vnum R t) as [t'|] eqn:E; [|discriminate]. injection H as <-. simpl.
    eapply vnum_numtok; eassumption.
  - intros e s v _ H. rewrite vof_str in H. injection H as <-. reflexivity.
  - intros l IH v Hn H. apply num_wf_arr in Hn. rewrite vof_arr in H.
    destruct (all_some (map (vof R) l)) as [r|] eqn:E; [|discriminate]. injection H as <-.
    apply all_some_Forall2 in E. apply wf_arr. eapply Forall2_all; [|exact Hn|exact E].
    intros a b Ha Hp Hv. rewrite Forall_forall in IH. eapply IH; eassumption.
  - intros l IH IR v Hn H. destruct (raw_member l) as [[s|]|] eqn:EM.
    { apply (vof_raw _ _ _ _ EM) in H. destruct H as [j [HP [_ H]]]. eapply IR; [reflexivity|exact HP|eapply parse_num_wf; eassumption|exact H]. }
    { rewrite vof_obj, EM in H. discriminate. }
    apply num_wf_obj in Hn. rewrite vof_obj, EM in H.
    destruct (all_some _) as [r|] eqn:E; [|discriminate]. injection H as <-.
    apply all_some_Forall2 in E. apply wf_obj.
    assert (Hr : Forall (fun kv => wf_json (snd kv)) r).
    { eapply Forall2_all; [|exact Hn|exact E]. intros a b Ha Hp Hv. apply okv_some in Hv. destruct Hv as [_ Hv].
      rewrite Forall_forall in IH. eapply IH; eassumption. }
    rewrite Forall_forall in *. intros x Hx. apply Hr. now apply bt_of_entries_In.
Qed.

Lemma vof_sorted : forall R j v, vof R j = Some v -> osorted v.
Proof.
  intros R. apply (json_raw_ind (fun j => forall v, vof R j = Some v -> osorted v)).
  - intros v H. injection H as <-. exact I.
  - intros b v H. injection H as <-. exact I.
  - intros t v H. rewrite vof_num in H. destruct (vnum R t); [|discriminate]. injection H as <-. exact I.
  - intros e s v H. rewrite vof_str in H. injection H as <-. exact I.
  - intros l IH v H. rewrite vof_arr in H.
    destruct (all_some (map (vof R) l)) as [r|] eqn:E; [|discriminate]. injection H as <-.
    apply all_some_Forall2 in E. apply osorted_arr.
    eapply (Forall2_all _ _ (fun _ => True)); [|now apply Forall_forall|exact E].
    intros a b Ha Hp Hv. rewrite Forall_forall in IH. eapply IH; eassumption.
  - intros l IH IR v H. destruct (raw_member l) as [[s|]|] eqn:EM.
    { apply (vof_raw _ _ _ _ EM) in H. destruct H as [j [HP [_ H]]]. eapply IR; [reflexivity|exact HP|exact H]. }
    { rewrite vof_obj, EM in H. discriminate. }
    rewrite vof_obj, EM in H. destruct (all_some _) as [r|] eqn:E; [|discriminate]. injection H as <-.
    apply all_some_Forall2 in E. apply osorted_obj. split; [apply bt_of_entries_sorted|].
    assert (Hr : Forall (fun kv => osorted (snd kv)) r).
    { eapply (Forall2_all _ _ (fun _ => True)); [|now apply Forall_forall|exact E].
      intros a b Ha Hp Hv. apply okv_some in Hv. destruct Hv as [_ Hv].
      rewrite Forall_forall in IH. eapply IH; eassumption. }
    rewrite Forall_forall in *. intros x Hx. apply Hr. now apply bt_of_entries_In.
Qed.

(** UTF-8 is kept. *)
Lemma vof_utf8 : forall R j v, jutf8 j -> vof R j = Some v -> jutf8 v.
Proof.
  intros R. apply (json_raw_ind (fun j => forall v, jutf8 j -> vof R j = Some v -> jutf8 v)).
  - intros v _ H. injection H as <-. exact I.
  - intros b v _ H. injection H as <-. exact I.
  - intros t v _ H. rewrite vof_num in H. destruct (vnum R t); [|discriminate]. injection H as <-. exact I.
  - intros e s v Hu H. rewrite vof_str in H. injection H as <-. exact Hu.
  - intros l IH v Hu H. apply jutf8_arr in Hu. rewrite vof_arr in H.
    destruct (all_some (map (vof R) l)) as [r|] eqn:E; [|discriminate]. injection H as <-.
    apply all_some_Forall2 in E. apply jutf8_arr. eapply Forall2_all; [|exact Hu|exact E].
    intros a b Ha Hp Hv. rewrite Forall_forall in IH. eapply IH; eassumption.
  - intros l IH IR v Hu H. apply jutf8_obj in Hu. destruct (raw_member l) as [[s|]|] eqn:EM.
    { apply (vof_raw _ _ _ _ EM) in H. destruct H as [j [HP [_ H]]]. eapply IR; [reflexivity|exact HP| |exact H]. eapply parse_utf8; [|exact HP].
      apply raw_member_some in EM. destruct EM as [e ->]. inversion Hu as [|? ? G _]; subst. apply G. }
    { rewrite vof_obj, EM in H. discriminate. }
    rewrite vof_obj, EM in H.
    destruct (all_some _) as [r|] eqn:E; [|discriminate]. injection H as <-.
    apply all_some_Forall2 in E. apply jutf8_obj.
    assert (Hr : Forall (fun kv => utf8_valid (fst kv) = true /\ jutf8 (snd kv)) r).
    { eapply Forall2_all; [|exact Hu|exact E]. intros a b Ha [Hp1 Hp2] Hv. apply okv_some in Hv. destruct Hv as [-> Hv].
      split; [assumption|]. rewrite Forall_forall in IH. eapply IH; eassumption. }
    rewrite Forall_forall in *. intros x Hx. apply Hr. now apply bt_of_entries_In.
Qed.

(** ** Depth *)

Lemma depth_arr_le : forall l d, depth (JArr l) <= S d <-> Forall (fun j => depth j <= d) l.
Proof.
  intros l d. simpl. rewrite <- Nat.succ_le_mono, fold_max_le, Forall_map. reflexivity.
Qed.
Lemma depth_obj_le : forall l d, depth (JObj l) <= S d <-> Forall (fun kv => depth (snd kv) <= d) l.
Proof.
  intros l d. simpl. rewrite <- Nat.succ_le_mono, fold_max_le, Forall_map. reflexivity.
Qed.

(** No member anywhere has the reserved name. *)
Fixpoint tok_free (j : json) : Prop :=
  match j with
  | JArr l => (fix go l := match l with [] => True | x :: r => tok_free x /\ go r end) l
  | JObj l => (fix go l := match l with [] => True | x :: r => (fst x <> raw_token /\ tok_free (snd x)) /\ go r end) l
  | _ => True
  end.
Lemma tok_free_arr : forall l, tok_free (JArr l) <-> Forall tok_free l.
Proof.
  induction l as [|x l IH]; [split; constructor|]. simpl in *. rewrite IH. split.
  - intros [H1 H2]. now constructor.
  - intros H. inversion H. now split.
Qed.
Lemma tok_free_obj : forall l, tok_free (JObj l) <-> Forall (fun kv => fst kv <> raw_token /\ tok_free (snd kv)) l.
Proof.
  induction l as [|x l IH]; [split; constructor|]. cbn [tok_free] in *. rewrite IH. split.
  - intros [H1 H2]. now constructor.
  - intros H. inversion H. now split.
Qed.
Lemma tok_free_raw : forall l, Forall (fun kv => fst kv <> raw_token /\ tok_free (snd kv)) l -> raw_member l = None.
Proof.
  intros [|[k v] l] H; [reflexivity|]. inversion H as [|? ? [G _] _]; subst. unfold raw_member.
  destruct (String.eqb_spec k raw_token); [contradiction|reflexivity].
Qed.

Lemma vof_depth : forall R j v, tok_free j -> vof R j = Some v -> depth v <= depth j.
Proof.
  intros R. apply (json_rect2 (fun j => forall v, tok_free j -> vof R j = Some v -> depth v <= depth j)).
  - intros v _ H. injection H as <-. simpl. lia.
  - intros b v _ H. injection H as <-. simpl. lia.
  - intros t v _ H. rewrite vof_num in H. destruct (vnum R t); [|discriminate]. injection H as <-. simpl. lia.
  - intros e s v _ H. rewrite vof_str in H. injection H as <-; simpl; lia.
  - intros l IH v HT H. apply tok_free_arr in HT. rewrite vof_arr in H.
    destruct (all_some (map (vof R) l)) as [r|] eqn:E; [|discriminate]. injection H as <-.
    apply all_some_Forall2 in E.
    destruct (depth (JArr l)) as [|d] eqn:Ed; [discriminate|]. apply depth_arr_le.
    assert (Hl : Forall (fun j => depth j <= d) l) by (apply depth_arr_le; lia).
    eapply Forall2_all; [|exact Hl|exact E]. intros a b Ha Hp Hv. rewrite Forall_forall in IH, HT.
    specialize (IH _ Ha _ (HT _ Ha) Hv). cbn beta in Hp. lia.
  - intros l IH v HT H. apply tok_free_obj in HT. rewrite vof_obj, (tok_free_raw _ HT) in H. destruct (all_some _) as [r|] eqn:E; [|discriminate]. injection H as <-.
    apply all_some_Forall2 in E.
    destruct (depth (JObj l)) as [|d] eqn:Ed; [discriminate|].
    assert (Hl : Forall (fun kv => depth (snd kv) <= d) l) by (apply depth_obj_le; lia).
    apply depth_obj_le.
    assert (Hr : Forall (fun kv => depth (snd kv) <= d) r).
    { eapply Forall2_all; [|exact Hl|exact E].
      intros a b Ha Hp Hv. apply okv_some in Hv. destruct Hv as [_ Hv].
      rewrite Forall_forall in IH, HT. specialize (IH _ Ha _ (proj2 (HT _ Ha)) Hv). cbn beta in Hp. lia. }
    rewrite Forall_forall in *. intros x Hx. apply Hr. now apply bt_of_entries_In.
Qed.
Lemma vof_tok_free : forall R j v, tok_free j -> vof R j = Some v -> tok_free v.
Proof.
  intros R. apply (json_rect2 (fun j => forall v, tok_free j -> vof R j = Some v -> tok_free v)).
  - intros v _ H. injection H as <-. exact I.
  - intros b v _ H. injection H as <-. exact I.
  - intros t v _ H. rewrite vof_num in H. destruct (vnum R t); [|discriminate]. injection H as <-. exact I.
  - intros e s v _ H. rewrite vof_str in H. injection H as <-; exact I.
  - intros l IH v HT H. apply tok_free_arr in HT. rewrite vof_arr in H.
    destruct (all_some (map (vof R) l)) as [r|] eqn:E; [|discriminate]. injection H as <-.
    apply all_some_Forall2 in E. apply tok_free_arr. eapply Forall2_all; [|exact HT|exact E].
    intros a b Ha Hp Hv. rewrite Forall_forall in IH. eapply IH; eassumption.
  - intros l IH v HT H. apply tok_free_obj in HT. rewrite vof_obj, (tok_free_raw _ HT) in H. destruct (all_some _) as [r|] eqn:E; [|discriminate]. injection H as <-.
    apply all_some_Forall2 in E. apply tok_free_obj.
    assert (Hr : Forall (fun kv => fst kv <> raw_token /\ tok_free (snd kv)) r).
    { eapply Forall2_all; [|exact HT|exact E]. intros a b Ha [Hp1 Hp2] Hv. apply okv_some in Hv. destruct Hv as [-> Hv].
      split; [assumption|]. rewrite Forall_forall in IH. eapply IH; eassumption. }
    rewrite Forall_forall in *. intros x Hx. apply Hr. now apply bt_of_entries_In.
Qed.

Lemma value_of_some : forall R d j v, value_of R d j = Some v -> depth j <= d /\ vof R j = Some v.
Proof.
  intros R d j v H. unfold value_of in H. destruct (Nat.leb_spec (depth j) d); [|discriminate]. now split.
Qed.
Lemma value_of_canon : forall R d j, canon R j -> depth j <= d -> value_of R d j = Some j.
Proof.
  intros R d j (H1 & H2 & H3) Hd. unfold value_of. apply Nat.leb_le in Hd. rewrite Hd. now apply vof_canon.
Qed.

(** Numbers of canonical trees are in range. *)
Lemma nums_ok_stable : forall R j, nums_stable R j -> nums_ok R j = true.
Proof.
  intros R. apply (json_rect2 (fun j => nums_stable R j -> nums_ok R j = true)); try reflexivity.
  - intros t H. simpl in *. now rewrite H.
  - intros l IH H. apply nums_stable_arr in H. cbn [nums_ok]. apply forallb_forall. rewrite Forall_forall in *. auto.
  - intros l IH H. apply nums_stable_obj in H. destruct H as [_ H]. cbn [nums_ok]. apply forallb_forall. rewrite Forall_forall in *. auto.
Qed.

(** Integers are always stable. *)
Lemma tok_int_digits : forall d, no_leading_zero d = true -> sall is_digit d = true -> tok_int d = Some (false, d).
Proof.
  intros [|c d] Hz Hd; [discriminate|]. unfold tok_int. cbn [sall] in Hd. pose proof Hd as Hd'.
  apply andb_true_iff in Hd. destruct Hd as [Hc Hr].
  destruct (N.eqb_spec (code c) 45) as [E|E].
  - unfold is_digit in Hc. rewrite E in Hc. discriminate.
  - cbn [sall]. now rewrite Hd'.
Qed.
Lemma dec_tok_int : forall n, tok_int (dec_of_N n) = Some (false, dec_of_N n).
Proof. intros n. apply tok_int_digits; [apply dec_of_N_form|apply dec_of_N_digits]. Qed.
Lemma vnum_dec : forall R n, (n <= u64_max)%N -> vnum R (dec_of_N n) = Some (dec_of_N n).
Proof.
  intros R n H. unfold vnum. rewrite dec_tok_int, dec_of_N_val. apply N.leb_le in H. now rewrite H.
Qed.
Lemma numtok_digits : forall d, no_leading_zero d = true -> numtok d.
Proof.
  intros [|c d] Hz; [discriminate|]. unfold numtok, lex_num.
  assert (Hc : is_digit c = true).
  { cbn [no_leading_zero] in Hz. destruct d; [assumption|]. rewrite !andb_true_iff in Hz. tauto. }
  assert (H45 : (code c =? 45)%N = false).
  { apply N.eqb_neq. intros E. unfold is_digit in Hc. rewrite E in Hc. discriminate. }
  rewrite H45. assert (Hi : lex_int (String c d) = Some (String c d, "")).
  { cbn [lex_int]. destruct (code c =? 48)%N eqn:E0.
    - cbn [no_leading_zero] in Hz. destruct d as [|c2 d]; [reflexivity|]. rewrite E0 in Hz.
      rewrite !andb_true_iff in Hz. simpl in Hz. now destruct Hz as [[_ Hz] _].
    - rewrite Hc. f_equal. rewrite <- (sapp_nil_r (String c d)) at 1. apply span_digits_exact; [|reflexivity].
      cbn [no_leading_zero] in Hz. destruct d as [|c2 d]; [cbn [sall]; now rewrite Hc|].
      rewrite !andb_true_iff in Hz. cbn [sall] in *. rewrite Hc. tauto. }
  rewrite Hi. simpl. now rewrite sapp_nil_r.
Qed.
Lemma numtok_dec : forall n, numtok (dec_of_N n).
Proof. intros n. apply numtok_digits. apply dec_of_N_form. Qed.
