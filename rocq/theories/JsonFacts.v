(** Facts about Json.v: parsing what was printed gives the tree back; the fuel of [parse] suffices; printed text is
    UTF-8 and free of control characters; parsed strings are UTF-8. *)

From Coq Require Import Ascii String Arith NArith ZArith ZifyN List Bool Lia.
From Verif Require Import Bytes Utf8 Json BytesFacts Utf8Facts.
Import ListNotations.
Local Open Scope string_scope.

Ltac Zify.zify_post_hook ::= Z.div_mod_to_equations.

(** ** Induction over trees *)

Definition json_rect2 (P : json -> Prop)
  (Hnull : P JNull) (Hbool : forall b, P (JBool b)) (Hnum : forall t, P (JNum t))
  (Hstr : forall e s, P (JStr e s))
  (Harr : forall l, Forall P l -> P (JArr l))
  (Hobj : forall l, Forall (fun kv => P (snd kv)) l -> P (JObj l)) : forall j, P j :=
  fix go (j : json) : P j :=
    match j with
    | JNull => Hnull
    | JBool b => Hbool b
    | JNum t => Hnum t
    | JStr e s => Hstr e s
    | JArr l => Harr l ((fix gl (l : list json) : Forall P l :=
                           match l with [] => Forall_nil _ | x :: r => Forall_cons _ (go x) (gl r) end) l)
    | JObj l => Hobj l ((fix gl (l : list (string * json)) : Forall (fun kv => P (snd kv)) l :=
                           match l with [] => Forall_nil _ | x :: r => Forall_cons _ (go (snd x)) (gl r) end) l)
    end.

(** Trees whose number tokens are numbers and whose escape flags are those of the printer. *)
Definition numtok (t : string) : Prop := lex_num t = Some (t, "").
Fixpoint wf_json (j : json) : Prop :=
  match j with
  | JNum t => numtok t
  | JStr e s => e = needs_escape s
  | JArr l => (fix go l := match l with [] => True | x :: r => wf_json x /\ go r end) l
  | JObj l => (fix go l := match l with [] => True | x :: r => wf_json (snd x) /\ go r end) l
  | _ => True
  end.

Lemma wf_arr : forall l, wf_json (JArr l) <-> Forall wf_json l.
Proof.
  induction l as [|x l IH]; [split; constructor|]. simpl in *. rewrite IH. split.
  - intros [H1 H2]. now constructor.
  - intros H. inversion H. now split.
Qed.
Lemma wf_obj : forall l, wf_json (JObj l) <-> Forall (fun kv => wf_json (snd kv)) l.
Proof.
  induction l as [|x l IH]; [split; constructor|]. simpl in *. rewrite IH. split.
  - intros [H1 H2]. now constructor.
  - intros H. inversion H. now split.
Qed.

(** ** Numbers *)

(** What may follow a number without extending it. *)
Definition numend (r : string) : bool :=
  match r with
  | "" => true
  | String c _ => negb (is_digit c) && negb (code c =? 46)%N && negb (code c =? 101)%N && negb (code c =? 69)%N
  end.

Lemma numend_nodigit : forall r, numend r = true -> nodigit r = true.
Proof. intros [|c r] H; [reflexivity|]. simpl in *. rewrite !andb_true_iff in H. tauto. Qed.

Lemma nodigit_app : forall y r, nodigit y = true -> numend r = true -> nodigit (y ++ r) = true.
Proof. intros [|c y] r Hy Hr; [now apply numend_nodigit|exact Hy]. Qed.

Lemma span_digits_app_r : forall s d y r, span_digits s = (d, y) -> numend r = true -> span_digits (s ++ r) = (d, y ++ r).
Proof.
  intros s d y r H Hr. pose proof (span_digits_app s) as Ha. pose proof (span_digits_digits s) as Hd.
  pose proof (span_digits_ends s) as He. rewrite H in *. simpl in *. subst s.
  rewrite sapp_assoc. apply span_digits_exact; [assumption|]. now apply nodigit_app.
Qed.

Lemma lex_int_app : forall s i y r, lex_int s = Some (i, y) -> numend r = true -> lex_int (s ++ r) = Some (i, y ++ r).
Proof.
  intros [|c s] i y r H Hr; [discriminate|]. cbn [lex_int] in H. cbn [append lex_int].
  destruct (code c =? 48)%N; [injection H as <- <-; reflexivity|].
  destruct (is_digit c); [|discriminate]. apply some_inj in H.
  change (String c (s ++ r)) with (String c s ++ r). f_equal. now apply span_digits_app_r.
Qed.

Lemma lex_frac_app : forall s i y r, lex_frac s = Some (i, y) -> numend r = true -> lex_frac (s ++ r) = Some (i, y ++ r).
Proof.
  intros [|c s] i y r H Hr; cbn [lex_frac] in H.
  - injection H as <- <-. destruct r as [|c r]; [reflexivity|]. cbn [append lex_frac].
    cbn [numend] in Hr. rewrite !andb_true_iff, !negb_true_iff in Hr. destruct Hr as [[[_ Hr] _] _]. now rewrite Hr.
  - cbn [append lex_frac]. destruct (code c =? 46)%N; [|injection H as <- <-; reflexivity].
    destruct (span_digits s) as [d y'] eqn:E. rewrite (span_digits_app_r _ _ _ _ E Hr).
    destruct d; [discriminate|]. injection H as <- <-. reflexivity.
Qed.

Lemma lex_exp_app : forall s i y r, lex_exp s = Some (i, y) -> numend r = true -> lex_exp (s ++ r) = Some (i, y ++ r).
Proof.
  intros [|c s] i y r H Hr; cbn [lex_exp] in H.
  - injection H as <- <-. destruct r as [|c r]; [reflexivity|]. cbn [append lex_exp].
    cbn [numend] in Hr. rewrite !andb_true_iff, !negb_true_iff in Hr. destruct Hr as [[[_ _] Hr] Hr2].
    now rewrite Hr, Hr2.
  - cbn [append lex_exp]. destruct ((code c =? 101) || (code c =? 69))%N; [|injection H as <- <-; reflexivity].
    destruct s as [|p s]; [discriminate|]. cbn [append].
    destruct ((code p =? 43) || (code p =? 45))%N.
    + destruct (span_digits s) as [d y'] eqn:E. rewrite (span_digits_app_r _ _ _ _ E Hr).
      destruct d; [discriminate|]. injection H as <- <-. reflexivity.
    + change (String p (s ++ r)) with (String p s ++ r).
      destruct (span_digits (String p s)) as [d y'] eqn:E. rewrite (span_digits_app_r _ _ _ _ E Hr).
      destruct d; [discriminate|]. injection H as <- <-. reflexivity.
Qed.

Lemma lex_num_app : forall s t y r, lex_num s = Some (t, y) -> numend r = true -> lex_num (s ++ r) = Some (t, y ++ r).
Proof.
  intros s t y r H Hr. unfold lex_num in *.
  destruct s as [|c s]; [discriminate|]. cbn [append].
  destruct (code c =? 45)%N.
  - destruct (lex_int s) as [[i s2]|] eqn:E1; [|discriminate]. rewrite (lex_int_app _ _ _ _ E1 Hr).
    destruct (lex_frac s2) as [[f s3]|] eqn:E2; [|discriminate]. rewrite (lex_frac_app _ _ _ _ E2 Hr).
    destruct (lex_exp s3) as [[e s4]|] eqn:E3; [|discriminate]. rewrite (lex_exp_app _ _ _ _ E3 Hr).
    injection H as <- <-. reflexivity.
  - change (String c (s ++ r)) with (String c s ++ r).
    destruct (lex_int (String c s)) as [[i s2]|] eqn:E1; [|discriminate]. rewrite (lex_int_app _ _ _ _ E1 Hr).
    destruct (lex_frac s2) as [[f s3]|] eqn:E2; [|discriminate]. rewrite (lex_frac_app _ _ _ _ E2 Hr).
    destruct (lex_exp s3) as [[e s4]|] eqn:E3; [|discriminate]. rewrite (lex_exp_app _ _ _ _ E3 Hr).
    injection H as <- <-. reflexivity.
Qed.

(** Conversely: the token produced is a prefix, and is a number by itself. *)
Lemma lex_int_split : forall s i y, lex_int s = Some (i, y) ->
  s = i ++ y /\ exists c r, i = String c r /\ is_digit c = true /\ sall is_digit r = true.
Proof.
  intros [|c s] i y H; [discriminate|]. cbn [lex_int] in H.
  destruct (N.eqb_spec (code c) 48) as [E|E].
  - injection H as <- <-. split; [reflexivity|]. exists c, "". repeat split. unfold is_digit. now rewrite E.
  - destruct (is_digit c) eqn:D; [|discriminate]. apply some_inj in H.
    pose proof (span_digits_app (String c s)) as Ha. pose proof (span_digits_digits (String c s)) as Hd.
    rewrite H in Ha, Hd. simpl fst in *. simpl snd in *. split; [now symmetry|].
    cbn [span_digits] in H. rewrite D in H. destruct (span_digits s) as [d r']. injection H as <- <-.
    exists c, d. cbn [sall] in Hd. apply andb_true_iff in Hd. tauto.
Qed.

Lemma lex_int_self : forall s i y, lex_int s = Some (i, y) -> lex_int i = Some (i, "").
Proof.
  intros [|c s] i y H; [discriminate|]. cbn [lex_int] in H.
  destruct (code c =? 48)%N eqn:E; [injection H as <- <-; cbn [lex_int]; now rewrite E|].
  destruct (is_digit c) eqn:D; [|discriminate]. apply some_inj in H.
  pose proof (span_digits_digits (String c s)) as Hd. rewrite H in Hd. simpl fst in Hd.
  cbn [span_digits] in H. rewrite D in H. destruct (span_digits s) as [d r']. injection H as <- <-.
  cbn [lex_int]. rewrite E, D. f_equal. rewrite <- (sapp_nil_r (String c d)) at 1.
  now apply span_digits_exact.
Qed.

Lemma lex_frac_split : forall s f y, lex_frac s = Some (f, y) -> s = f ++ y /\ lex_frac f = Some (f, "").
Proof.
  intros [|c s] f y H; cbn [lex_frac] in H; [injection H as <- <-; now split|].
  destruct (code c =? 46)%N eqn:E; [|injection H as <- <-; now split].
  pose proof (span_digits_app s) as Ha. pose proof (span_digits_digits s) as Hd.
  destruct (span_digits s) as [d r]. simpl in *. destruct d as [|x d]; [discriminate|].
  injection H as <- <-. subst s. split; [reflexivity|]. cbn [lex_frac]. rewrite E.
  rewrite <- (sapp_nil_r (String x d)) at 1. rewrite span_digits_exact; [reflexivity|assumption|reflexivity].
Qed.

Lemma lex_exp_split : forall s f y, lex_exp s = Some (f, y) -> s = f ++ y /\ lex_exp f = Some (f, "").
Proof.
  intros [|c s] f y H; cbn [lex_exp] in H; [injection H as <- <-; now split|].
  destruct ((code c =? 101) || (code c =? 69))%N eqn:E; [|injection H as <- <-; now split].
  destruct s as [|p s]; [discriminate|].
  destruct ((code p =? 43) || (code p =? 45))%N eqn:Ep.
  - pose proof (span_digits_app s) as Ha. pose proof (span_digits_digits s) as Hd.
    destruct (span_digits s) as [d r]. simpl in *. destruct d as [|x d]; [discriminate|].
    injection H as <- <-. subst s. split; [reflexivity|]. cbn [lex_exp append]. rewrite E, Ep.
    rewrite <- (sapp_nil_r (String x d)) at 1. rewrite span_digits_exact; [reflexivity|assumption|reflexivity].
  - pose proof (span_digits_app (String p s)) as Ha. pose proof (span_digits_digits (String p s)) as Hd.
    destruct (span_digits (String p s)) as [d r]. simpl fst in *. simpl snd in *. destruct d as [|x d]; [discriminate|].
    injection H as <- <-. rewrite <- Ha. split; [reflexivity|]. cbn [lex_exp append]. rewrite E.
    cbn [append] in Ha. injection Ha as -> Ha. rewrite Ep.
    rewrite <- (sapp_nil_r (String p d)) at 1. rewrite span_digits_exact; [reflexivity|assumption|reflexivity].
Qed.

(** Fraction and exponent parts do not start with a digit; exponent parts do not start with a dot. *)
Lemma lex_frac_numend : forall f e y, lex_frac f = Some (f, "") -> lex_exp e = Some (e, y) -> nodigit (f ++ e) = true.
Proof.
  intros f e y Hf He. destruct f as [|c f].
  - destruct e as [|c e]; [reflexivity|]. cbn [lex_exp] in He. cbn [append nodigit].
    destruct ((code c =? 101) || (code c =? 69))%N eqn:E; [|injection He as He; discriminate].
    apply negb_true_iff. unfold is_digit. destruct (N.leb_spec 48 (code c)), (N.leb_spec (code c) 57); try reflexivity.
    apply orb_true_iff in E. rewrite !N.eqb_eq in E. lia.
  - cbn [lex_frac] in Hf. cbn [append nodigit].
    destruct (code c =? 46)%N eqn:E; [|injection Hf as Hf; discriminate].
    apply N.eqb_eq in E. unfold is_digit. rewrite E. reflexivity.
Qed.

Lemma lex_frac_exp : forall f e y, lex_frac f = Some (f, "") -> lex_exp e = Some (e, y) -> lex_frac (f ++ e) = Some (f, e).
Proof.
  intros f e y Hf He. destruct f as [|c f].
  - cbn [append]. destruct e as [|c e]; [reflexivity|]. cbn [lex_exp lex_frac] in *.
    destruct ((code c =? 101) || (code c =? 69))%N eqn:E; [|injection He as He; discriminate].
    destruct (N.eqb_spec (code c) 46) as [E2|E2]; [|reflexivity]. rewrite E2 in E. discriminate.
  - cbn [lex_frac append] in *.
    destruct (code c =? 46)%N eqn:E; [|injection Hf as Hf; discriminate].
    pose proof (span_digits_app f) as Ha. pose proof (span_digits_digits f) as Hd.
    destruct (span_digits f) as [d r]. simpl fst in *; simpl snd in *.
    destruct d as [|x d]; [discriminate|]. injection Hf as Hx Hr. subst f r.
    rewrite span_digits_exact; [reflexivity|assumption|].
    change e with ("" ++ e). eapply lex_frac_numend; [|exact He]. reflexivity.
Qed.

Lemma lex_int_frac : forall i x, lex_int i = Some (i, "") -> nodigit x = true -> lex_int (i ++ x) = Some (i, x).
Proof.
  intros [|c i] x H Hx; [discriminate|]. cbn [lex_int append] in *.
  destruct (code c =? 48)%N eqn:E; [injection H as <-; reflexivity|].
  destruct (is_digit c) eqn:D; [|discriminate]. f_equal. apply some_inj in H.
  change (String c (i ++ x)) with (String c i ++ x).
  pose proof (span_digits_digits (String c i)) as Hd. rewrite H in Hd. simpl fst in Hd.
  apply span_digits_exact; assumption.
Qed.

Lemma lex_num_split : forall s t y, lex_num s = Some (t, y) -> s = t ++ y /\ numtok t.
Proof.
  intros s t y H. unfold lex_num in H.
  set (sg := match s with String c r => if (code c =? 45)%N then (String c "", r) else ("", s) | "" => ("", "") end) in *.
  assert (Hsg : s = fst sg ++ snd sg).
  { subst sg. destruct s as [|c s]; [reflexivity|]. destruct (code c =? 45)%N; reflexivity. }
  assert (Hsg2 : fst sg = "" \/ exists c, fst sg = String c "" /\ (code c =? 45)%N = true).
  { subst sg. destruct s as [|c s]; [now left|]. destruct (code c =? 45)%N eqn:E; [right; now exists c|now left]. }
  clearbody sg. destruct sg as [sg s1]. simpl in Hsg, Hsg2.
  destruct (lex_int s1) as [[i s2]|] eqn:E1; [|discriminate].
  destruct (lex_frac s2) as [[f s3]|] eqn:E2; [|discriminate].
  destruct (lex_exp s3) as [[e s4]|] eqn:E3; [|discriminate]. injection H as <- <-.
  pose proof (lex_int_self _ _ _ E1) as Hi. apply lex_int_split in E1. destruct E1 as [-> [c [r [Hc [Hd _]]]]].
  apply lex_frac_split in E2. destruct E2 as [-> Hf]. apply lex_exp_split in E3. destruct E3 as [-> He].
  split; [rewrite Hsg; now rewrite !sapp_assoc|].
  assert (Hrest : lex_int (i ++ (f ++ e)) = Some (i, f ++ e)).
  { apply lex_int_frac; [assumption|]. eapply lex_frac_numend; eassumption. }
  assert (Hfe : lex_frac (f ++ e) = Some (f, e)) by (eapply lex_frac_exp; eassumption).
  unfold numtok, lex_num. destruct Hsg2 as [->|[m [-> Hm]]].
  - subst i. cbn [append] in Hrest |- *.
    assert (Hc45 : (code c =? 45)%N = false).
    { unfold is_digit in Hd. apply andb_true_iff in Hd. rewrite !N.leb_le in Hd. apply N.eqb_neq. lia. }
    rewrite Hc45, Hrest, Hfe, He. reflexivity.
  - cbn [append]. rewrite Hm, Hrest, Hfe, He. reflexivity.
Qed.

(** A number token starts with a minus sign or a digit. *)
Lemma numtok_head : forall t, numtok t -> exists c r, t = String c r /\ ((code c =? 45)%N || is_digit c) = true.
Proof.
  intros [|c t] H; [discriminate|]. exists c, t. split; [reflexivity|]. unfold numtok, lex_num in H.
  destruct (code c =? 45)%N; [reflexivity|]. simpl. cbn [lex_int] in H.
  destruct (N.eqb_spec (code c) 48) as [E|E]; [unfold is_digit; now rewrite E|].
  destruct (is_digit c); [reflexivity|discriminate].
Qed.

(** ** Strings *)

Lemma pstr_plain : forall c r, esc_needed c = false -> pstr (String c r) = push false (String c "") (pstr r).
Proof.
  intros c r H. unfold esc_needed in H. rewrite !orb_false_iff in H. destruct H as [[H1 H2] H3].
  cbn [pstr]. now rewrite H1, H2, H3.
Qed.

Lemma esc_char_plain : forall c, esc_needed c = false -> esc_char c = String c "".
Proof.
  intros c H. unfold esc_needed in H. rewrite !orb_false_iff in H. destruct H as [[H1 H2] H3].
  unfold esc_char. rewrite H1, H2, H3.
  apply N.ltb_ge in H3.
  repeat match goal with |- context [(?a =? ?b)%N] => destruct (N.eqb_spec a b); [lia|] end. reflexivity.
Qed.

Lemma pstr_escaped : forall c r, esc_needed c = true -> pstr (esc_char c ++ r) = push true (String c "") (pstr r).
Proof.
  intros c r H. destruct c as [[] [] [] [] [] [] [] []]; vm_compute in H; try discriminate; reflexivity.
Qed.

Lemma pstr_escape : forall s r, pstr (escape s ++ String dquote r) = Some (needs_escape s, s, r).
Proof.
  induction s as [|c s IH]; intros r.
  - reflexivity.
  - cbn [escape needs_escape]. rewrite sapp_assoc. destruct (esc_needed c) eqn:E.
    + rewrite pstr_escaped by assumption. rewrite IH. reflexivity.
    + rewrite esc_char_plain by assumption. cbn [append]. rewrite pstr_plain by assumption. rewrite IH. reflexivity.
Qed.

Lemma quote_app : forall s r, quote s ++ r = String dquote (escape s ++ String dquote r).
Proof. intros. unfold quote. cbn [append]. rewrite sapp_assoc. reflexivity. Qed.

(** ** Values *)

Lemma skip_ws_id : forall c r, is_ws c = false -> skip_ws (String c r) = String c r.
Proof. intros c r H. cbn [skip_ws]. now rewrite H. Qed.

(** First character of a printed tree. *)
Definition first_ok (c : ascii) : bool :=
  negb (is_ws c) && negb (code c =? 93)%N && negb (code c =? 125)%N.
Lemma print_head : forall j, wf_json j -> exists c r, print j = String c r /\ first_ok c = true.
Proof.
  intros [|[]|t|e s|l|l] H; cbn [print]; try (eexists _, _; split; [reflexivity|reflexivity]).
  destruct (numtok_head t H) as [c [r [-> Hc]]]. exists c, r. split; [reflexivity|].
  destruct c as [[] [] [] [] [] [] [] []]; vm_compute in Hc; try discriminate; reflexivity.
Qed.

Lemma numend_cons : forall c r, ((code c =? 44) || (code c =? 93) || (code c =? 125))%N = true -> numend (String c r) = true.
Proof.
  intros c r H. rewrite !orb_true_iff, !N.eqb_eq in H. cbn [numend]. unfold is_digit.
  destruct H as [[-> | ->] | ->]; reflexivity.
Qed.

Definition pval_ok (j : json) : Prop :=
  forall n r, 2 * String.length (print j) <= n -> numend r = true -> pval n (print j ++ r) = Some (j, r).

Lemma print_nonempty : forall j, wf_json j -> 1 <= String.length (print j).
Proof. intros j H. destruct (print_head j H) as [c [r [-> _]]]. simpl. lia. Qed.

Lemma commas_cons : forall x l, commas (x :: l) = match l with [] => x | _ => x ++ String "," (commas l) end.
Proof. intros x [|y l]; reflexivity. Qed.

Lemma pelems_print : forall l, l <> [] -> Forall wf_json l -> Forall pval_ok l ->
  forall n r, 2 * String.length (commas (map print l)) + 1 <= n ->
  pelems n (commas (map print l) ++ String "]" r) = Some (l, r).
Proof.
  induction l as [|j l IH]; intros Hne Hwf Hok n r Hn; [congruence|].
  inversion Hwf as [|x y Hw1 Hw2]; subst. inversion Hok as [|x y Ho1 Ho2]; subst.
  destruct n as [|n]; [lia|]. cbn [map] in *. rewrite commas_cons in *.
  destruct l as [|j2 l].
  - cbn [map] in *. cbn [pelems]. rewrite Ho1; [|lia|reflexivity].
    rewrite skip_ws_id by reflexivity. reflexivity.
  - cbn [map] in *. rewrite slen_app in Hn. cbn [String.length] in Hn.
    rewrite sapp_assoc. cbn [append]. cbn [pelems]. rewrite Ho1; [|lia|reflexivity].
    rewrite skip_ws_id by reflexivity. change (code "," =? 93)%N with false. change (code "," =? 44)%N with true.
    cbv iota. rewrite IH; [reflexivity|discriminate|assumption|assumption|lia].
Qed.

Definition print_member (kv : string * json) : string := quote (fst kv) ++ String ":" (print (snd kv)).

Lemma pmembers_print : forall l, l <> [] -> Forall (fun kv => wf_json (snd kv)) l -> Forall (fun kv => pval_ok (snd kv)) l ->
  forall n r, 2 * String.length (commas (map print_member l)) + 1 <= n ->
  pmembers n (commas (map print_member l) ++ String "}" r) = Some (l, r).
Proof.
  induction l as [|[k j] l IH]; intros Hne Hwf Hok n r Hn; [congruence|].
  inversion Hwf as [|x y Hw1 Hw2]; subst. inversion Hok as [|x y Ho1 Ho2]; subst. simpl snd in *.
  destruct n as [|n]; [lia|]. cbn [map] in *. rewrite commas_cons in *.
  assert (Hstep : forall rest, numend rest = true -> 2 * String.length (print j) <= n ->
    pmembers (S n) (print_member (k, j) ++ rest) =
    match skip_ws rest with
    | "" => None
    | String e r4 =>
        if (code e =? 125)%N then Some ([(k, j)], r4)
        else if (code e =? 44)%N then match pmembers n r4 with Some (l, r5) => Some ((k, j) :: l, r5) | None => None end
        else None
    end).
  { intros rest Hrest Hlen. unfold print_member. cbn [fst snd]. rewrite sapp_assoc, quote_app. cbn [append pmembers].
    rewrite skip_ws_id by reflexivity. change (code dquote =? 34)%N with true. cbv iota.
    rewrite pstr_escape. rewrite skip_ws_id by reflexivity. change (code ":" =? 58)%N with true. cbv iota.
    rewrite Ho1; [reflexivity|assumption|assumption]. }
  assert (Hl : String.length (print j) < String.length (print_member (k, j))).
  { unfold print_member. rewrite slen_app. cbn [String.length snd]. lia. }
  destruct l as [|j2 l].
  - cbn [map] in *. rewrite Hstep; [|reflexivity|lia]. rewrite skip_ws_id by reflexivity. reflexivity.
  - cbn [map] in *. rewrite slen_app in Hn. cbn [String.length] in Hn.
    rewrite sapp_assoc. cbn [append]. rewrite Hstep; [|reflexivity|lia].
    rewrite skip_ws_id by reflexivity. change (code "," =? 125)%N with false. change (code "," =? 44)%N with true.
    cbv iota. rewrite IH; [reflexivity|discriminate|assumption|assumption|lia].
Qed.

Lemma commas_head : forall x l, exists t, commas (x :: l) = x ++ t.
Proof. intros x [|y l]; [exists ""; now rewrite sapp_nil_r | exists (String "," (commas (y :: l))); reflexivity]. Qed.

Lemma pval_print : forall j, wf_json j -> pval_ok j.
Proof.
  apply (json_rect2 (fun j => wf_json j -> pval_ok j)).
  - intros _ n r Hn _. destruct n as [|n]; [simpl in Hn; lia|]. reflexivity.
  - intros [] _ n r Hn _; (destruct n as [|n]; [simpl in Hn; lia|]); reflexivity.
  - intros t Hw n r Hn Hr. cbn [print wf_json] in *. destruct (numtok_head t Hw) as [c [t' [-> Hc]]].
    destruct n as [|n]; [simpl in Hn; lia|].
    pose proof (lex_num_app _ _ _ r Hw Hr) as Hl. cbn [append] in *. cbn [pval].
    assert (Hall : is_ws c = false /\ (code c =? 110)%N = false /\ (code c =? 116)%N = false /\ (code c =? 102)%N = false
                   /\ (code c =? 34)%N = false /\ (code c =? 91)%N = false /\ (code c =? 123)%N = false).
    { destruct c as [[] [] [] [] [] [] [] []]; vm_compute in Hc; try discriminate; repeat split; reflexivity. }
    destruct Hall as (H1 & H2 & H3 & H4 & H5 & H6 & H7).
    rewrite skip_ws_id by assumption. rewrite H2, H3, H4, H5, H6, H7, Hl. reflexivity.
  - intros e s Hw n r Hn _. cbn [wf_json] in Hw. subst e. cbn [print]. destruct n as [|n]; [simpl in Hn; lia|].
    rewrite quote_app. cbn [pval]. rewrite skip_ws_id by reflexivity.
    change (code dquote =? 110)%N with false. change (code dquote =? 116)%N with false.
    change (code dquote =? 102)%N with false. change (code dquote =? 34)%N with true. cbv iota.
    now rewrite pstr_escape.
  - intros l IH Hw n r Hn Hr. apply wf_arr in Hw. cbn [print] in *. cbn [String.length] in Hn. rewrite slen_app in Hn.
    cbn [String.length] in Hn. destruct n as [|n]; [lia|]. cbn [append pval]. rewrite skip_ws_id by reflexivity.
    change (code "[" =? 110)%N with false. change (code "[" =? 116)%N with false.
    change (code "[" =? 102)%N with false. change (code "[" =? 34)%N with false. change (code "[" =? 91)%N with true.
    cbv iota. rewrite sapp_assoc. cbn [append].
    destruct l as [|j l].
    + cbn [map commas append]. rewrite skip_ws_id by reflexivity. reflexivity.
    + assert (Hok : Forall pval_ok (j :: l)).
      { rewrite Forall_forall in *. intros x Hx. apply IH; [assumption|]. now apply Hw. }
      assert (Hhd : exists d r', commas (map print (j :: l)) ++ String "]" r = String d r' /\ first_ok d = true).
      { inversion Hw as [|x y Hw1 Hw2]; subst. destruct (print_head j Hw1) as [d [r' [Hd Hf]]].
        destruct (commas_head (print j) (map print l)) as [t Ht]. exists d, ((r' ++ t) ++ String "]" r).
        split; [|assumption]. cbn [map]. rewrite Ht, Hd. reflexivity. }
      pose proof (pelems_print (j :: l) ltac:(discriminate) Hw Hok n r) as Hp.
      destruct Hhd as [d [r' [Hd Hf]]]. rewrite Hd in *.
      unfold first_ok in Hf. rewrite !andb_true_iff, !negb_true_iff in Hf. destruct Hf as [[Hf1 Hf2] Hf3].
      rewrite skip_ws_id by assumption. rewrite Hf2. rewrite Hp; [reflexivity|lia].
  - intros l IH Hw n r Hn Hr. apply wf_obj in Hw. cbn [print] in *.
    change (map (fun kv : string * json => quote (fst kv) ++ String ":" (print (snd kv))) l) with (map print_member l) in *.
    cbn [String.length] in Hn. rewrite slen_app in Hn.
    cbn [String.length] in Hn. destruct n as [|n]; [lia|]. cbn [append pval]. rewrite skip_ws_id by reflexivity.
    change (code "{" =? 110)%N with false. change (code "{" =? 116)%N with false.
    change (code "{" =? 102)%N with false. change (code "{" =? 34)%N with false. change (code "{" =? 91)%N with false.
    change (code "{" =? 123)%N with true.
    cbv iota. rewrite sapp_assoc. cbn [append].
    destruct l as [|kj l].
    + cbn [map commas append]. rewrite skip_ws_id by reflexivity. reflexivity.
    + assert (Hok : Forall (fun kv => pval_ok (snd kv)) (kj :: l)).
      { rewrite Forall_forall in *. intros x Hx. apply IH; [assumption|]. now apply Hw. }
      assert (Hhd : exists r', commas (map print_member (kj :: l)) ++ String "}" r = String dquote r').
      { destruct (commas_head (print_member kj) (map print_member l)) as [t Ht]. cbn [map]. rewrite Ht.
        unfold print_member at 1. rewrite !sapp_assoc, quote_app. eexists. reflexivity. }
      pose proof (pmembers_print (kj :: l) ltac:(discriminate) Hw Hok n r) as Hp.
      destruct Hhd as [r' Hd]. rewrite Hd in *.
      rewrite skip_ws_id by reflexivity. change (code dquote =? 125)%N with false. cbv iota.
      rewrite Hp; [reflexivity|lia].
Qed.

(** Parsing printed text. *)
Theorem parse_print : forall j, wf_json j -> parse (print j) = Some j.
Proof.
  intros j Hw. unfold parse. pose proof (pval_print j Hw (S (2 * String.length (print j))) "" ltac:(lia) eq_refl) as H.
  rewrite sapp_nil_r in H. rewrite H. reflexivity.
Qed.

Lemma print_inj : forall a b, wf_json a -> wf_json b -> print a = print b -> a = b.
Proof.
  intros a b Ha Hb H. apply parse_print in Ha, Hb. rewrite H in Ha. rewrite Ha in Hb. now injection Hb.
Qed.

(** ** Fuel *)

Lemma skip_ws_len : forall s, String.length (skip_ws s) <= String.length s.
Proof. induction s as [|c s IH]; simpl; [lia|]. destruct (is_ws c); simpl; lia. Qed.

Lemma strip_len : forall p s r, strip p s = Some r -> String.length r <= String.length s.
Proof.
  induction p as [|a p IH]; intros [|b s] r H; simpl in *; try discriminate; try (injection H as <-; simpl; lia).
  destruct (Ascii.eqb a b); [|discriminate]. apply IH in H. lia.
Qed.

(** Induction on the length of a string. *)
Lemma string_len_ind : forall P : string -> Prop,
  (forall s, (forall t, String.length t < String.length s -> P t) -> P s) -> forall s, P s.
Proof.
  intros P H s. assert (Hn : forall n t, String.length t < n -> P t).
  { induction n as [|n IH]; intros t Ht; [lia|]. apply H. intros u Hu. apply IH. lia. }
  apply (Hn (S (String.length s))). lia.
Qed.

Lemma push_some : forall b p x e t r, push b p x = Some (e, t, r) ->
  exists e' t', x = Some (e', t', r) /\ e = b || e' /\ t = p ++ t'.
Proof. intros b p [[[e' t'] r']|] e t r H; [|discriminate]. injection H as <- <- <-. now exists e', t'. Qed.

Lemma pstr_len : forall s e t r, pstr s = Some (e, t, r) -> String.length r < String.length s.
Proof.
  apply (string_len_ind (fun s => forall e t r, pstr s = Some (e, t, r) -> String.length r < String.length s)).
  intros [|c s] IH e t r H; [discriminate|]. cbn [pstr] in H.
  destruct (code c =? 34)%N; [injection H as <- <- <-; simpl; lia|].
  destruct (code c =? 92)%N.
  - destruct s as [|e1 r1]; [discriminate|]. destruct (code e1 =? 117)%N.
    + destruct r1 as [|h1 [|h2 [|h3 [|h4 r2]]]]; try discriminate.
      destruct (hex4 h1 h2 h3 h4) as [n|]; [|discriminate].
      destruct (is_low_surr n); [discriminate|]. destruct (is_high_surr n).
      * destruct r2 as [|b [|u [|k1 [|k2 [|k3 [|k4 r3]]]]]]; try discriminate.
        destruct ((code b =? 92) && (code u =? 117))%N; [|discriminate].
        destruct (hex4 k1 k2 k3 k4) as [n2|]; [|discriminate]. destruct (is_low_surr n2); [|discriminate].
        apply push_some in H. destruct H as (e' & t' & H & _ & _). apply IH in H; simpl in *; lia.
      * apply push_some in H. destruct H as (e' & t' & H & _ & _). apply IH in H; simpl in *; lia.
    + destruct (simple_escape e1); [|discriminate].
      apply push_some in H. destruct H as (e' & t' & H & _ & _). apply IH in H; simpl in *; lia.
  - destruct (code c <? 32)%N; [discriminate|].
    apply push_some in H. destruct H as (e' & t' & H & _ & _). apply IH in H; simpl in *; lia.
Qed.

(** A string is never longer than the text it was read from. *)
Lemma utf8_encode_len : forall n, String.length (utf8_encode n) <= 4.
Proof. intros n. unfold utf8_encode. repeat (destruct (_ <? _)%N; [cbn; lia|]). cbn; lia. Qed.
Lemma utf8_encode_len3 : forall n, (n < 65536)%N -> String.length (utf8_encode n) <= 3.
Proof.
  intros n H. unfold utf8_encode. destruct (n <? 128)%N; [cbn; lia|]. destruct (n <? 2048)%N; [cbn; lia|].
  destruct (N.ltb_spec n 65536); [cbn; lia|lia].
Qed.
Lemma slength_app : forall a b, String.length (a ++ b) = String.length a + String.length b.
Proof. induction a as [|c a IH]; intros b; [reflexivity|]. cbn. now rewrite IH. Qed.
Lemma pstr_text_len : forall s e t r, pstr s = Some (e, t, r) -> String.length t + String.length r < String.length s.
Proof.
  apply (string_len_ind (fun s => forall e t r, pstr s = Some (e, t, r) -> String.length t + String.length r < String.length s)).
  intros [|c s] IH e t r H; [discriminate|]. cbn [pstr] in H.
  destruct (code c =? 34)%N; [injection H as <- <- <-; simpl; lia|].
  destruct (code c =? 92)%N.
  - destruct s as [|e1 r1]; [discriminate|]. destruct (code e1 =? 117)%N.
    + destruct r1 as [|h1 [|h2 [|h3 [|h4 r2]]]]; try discriminate.
      destruct (hex4 h1 h2 h3 h4) as [n|]; [|discriminate].
      destruct (is_low_surr n); [discriminate|]. destruct (is_high_surr n).
      * destruct r2 as [|b [|u [|k1 [|k2 [|k3 [|k4 r3]]]]]]; try discriminate.
        destruct ((code b =? 92) && (code u =? 117))%N; [|discriminate].
        destruct (hex4 k1 k2 k3 k4) as [n2|]; [|discriminate]. destruct (is_low_surr n2); [|discriminate].
        apply push_some in H. destruct H as (e' & t' & H & _ & ->). apply IH in H; [|cbn [String.length]; lia]. rewrite slength_app.
        match goal with |- context [utf8_encode ?x] => pose proof (utf8_encode_len x) end. cbn [String.length] in *. lia.
      * apply push_some in H. destruct H as (e' & t' & H & _ & ->). apply IH in H; [|cbn [String.length]; lia]. rewrite slength_app.
        match goal with |- context [utf8_encode ?x] => pose proof (utf8_encode_len x) end. cbn [String.length] in *. lia.
    + destruct (simple_escape e1); [|discriminate].
      apply push_some in H. destruct H as (e' & t' & H & _ & ->). apply IH in H; simpl in *; lia.
  - destruct (code c <? 32)%N; [discriminate|].
    apply push_some in H. destruct H as (e' & t' & H & _ & ->). apply IH in H; simpl in *; lia.
Qed.

Lemma numtok_len : forall t, numtok t -> 1 <= String.length t.
Proof. intros t H. destruct (numtok_head t H) as [c [r [-> _]]]. simpl. lia. Qed.

(** What one run consumes, and the fuel that is enough to repeat it. *)
Lemma parse_fuel : forall n,
  (forall s j r, pval n s = Some (j, r) ->
     String.length r < String.length s /\
     forall m, 2 * (String.length s - String.length r) <= m -> pval m s = Some (j, r)) /\
  (forall s l r, pelems n s = Some (l, r) ->
     String.length r < String.length s /\
     forall m, 2 * (String.length s - String.length r) - 1 <= m -> pelems m s = Some (l, r)) /\
  (forall s l r, pmembers n s = Some (l, r) ->
     String.length r < String.length s /\
     forall m, 2 * (String.length s - String.length r) - 1 <= m -> pmembers m s = Some (l, r)).
Proof.
  induction n as [|n [IHv [IHe IHm]]]; [split; [|split]; intros; discriminate|]. split; [|split].
  - intros s j r H. cbn [pval] in H. pose proof (skip_ws_len s) as Hws.
    destruct (skip_ws s) as [|c s'] eqn:Es; [discriminate|]. cbn [String.length] in Hws.
    assert (Hfin : forall m, String.length r < String.length s ->
      2 * (String.length s - String.length r) <= m -> exists m', m = S m').
    { intros m Hl Hm. destruct m as [|m']; [lia|now exists m']. }
    destruct (code c =? 110)%N eqn:E1.
    { destruct (strip "ull" s') as [r'|] eqn:E; [|discriminate]. injection H as <- <-.
      pose proof (strip_len _ _ _ E). split; [lia|]. intros m Hm. destruct (Hfin m ltac:(lia) Hm) as [m' ->].
      cbn [pval]. now rewrite Es, E1, E. }
    destruct (code c =? 116)%N eqn:E2.
    { destruct (strip "rue" s') as [r'|] eqn:E; [|discriminate]. injection H as <- <-.
      pose proof (strip_len _ _ _ E). split; [lia|]. intros m Hm. destruct (Hfin m ltac:(lia) Hm) as [m' ->].
      cbn [pval]. now rewrite Es, E1, E2, E. }
    destruct (code c =? 102)%N eqn:E3.
    { destruct (strip "alse" s') as [r'|] eqn:E; [|discriminate]. injection H as <- <-.
      pose proof (strip_len _ _ _ E). split; [lia|]. intros m Hm. destruct (Hfin m ltac:(lia) Hm) as [m' ->].
      cbn [pval]. now rewrite Es, E1, E2, E3, E. }
    destruct (code c =? 34)%N eqn:E4.
    { destruct (pstr s') as [[[e t] r']|] eqn:E; [|discriminate]. injection H as <- <-.
      pose proof (pstr_len _ _ _ _ E). split; [lia|]. intros m Hm. destruct (Hfin m ltac:(lia) Hm) as [m' ->].
      cbn [pval]. now rewrite Es, E1, E2, E3, E4, E. }
    destruct (code c =? 91)%N eqn:E5.
    { pose proof (skip_ws_len s') as Hws2. destruct (skip_ws s') as [|d r'] eqn:Es2; [discriminate|].
      cbn [String.length] in Hws2. destruct (code d =? 93)%N eqn:Ed.
      - injection H as <- <-. split; [lia|]. intros m Hm. destruct (Hfin m ltac:(lia) Hm) as [m' ->].
        cbn [pval]. now rewrite Es, E1, E2, E3, E4, E5, Es2, Ed.
      - destruct (pelems n (String d r')) as [[l r2]|] eqn:E; [|discriminate]. injection H as <- <-.
        apply IHe in E. destruct E as [Hl Hf]. cbn [String.length] in Hl, Hf. split; [lia|].
        intros m Hm. destruct (Hfin m ltac:(lia) Hm) as [m' ->].
        cbn [pval]. rewrite Es, E1, E2, E3, E4, E5, Es2, Ed. rewrite Hf; [reflexivity|lia]. }
    destruct (code c =? 123)%N eqn:E6.
    { pose proof (skip_ws_len s') as Hws2. destruct (skip_ws s') as [|d r'] eqn:Es2; [discriminate|].
      cbn [String.length] in Hws2. destruct (code d =? 125)%N eqn:Ed.
      - injection H as <- <-. split; [lia|]. intros m Hm. destruct (Hfin m ltac:(lia) Hm) as [m' ->].
        cbn [pval]. now rewrite Es, E1, E2, E3, E4, E5, E6, Es2, Ed.
      - destruct (pmembers n (String d r')) as [[l r2]|] eqn:E; [|discriminate]. injection H as <- <-.
        apply IHm in E. destruct E as [Hl Hf]. cbn [String.length] in Hl, Hf. split; [lia|].
        intros m Hm. destruct (Hfin m ltac:(lia) Hm) as [m' ->].
        cbn [pval]. rewrite Es, E1, E2, E3, E4, E5, E6, Es2, Ed. rewrite Hf; [reflexivity|lia]. }
    destruct (lex_num (String c s')) as [[t r']|] eqn:E; [|discriminate]. injection H as <- <-.
    pose proof (lex_num_split _ _ _ E) as [Hs Ht]. apply numtok_len in Ht.
    assert (Hl : String.length (String c s') = String.length t + String.length r') by (rewrite Hs; apply slen_app).
    cbn [String.length] in Hl. split; [lia|]. intros m Hm. destruct (Hfin m ltac:(lia) Hm) as [m' ->].
    cbn [pval]. now rewrite Es, E1, E2, E3, E4, E5, E6, E.
  - intros s l r H. cbn [pelems] in H. destruct (pval n s) as [[j r1]|] eqn:Ev; [|discriminate].
    apply IHv in Ev. destruct Ev as [Hl1 Hf1]. pose proof (skip_ws_len r1) as Hws.
    destruct (skip_ws r1) as [|d r'] eqn:Es; [discriminate|]. cbn [String.length] in Hws.
    destruct (code d =? 93)%N eqn:E1.
    + injection H as <- <-. split; [lia|]. intros m Hm. destruct m as [|m]; [lia|]. cbn [pelems].
      rewrite Hf1 by lia. now rewrite Es, E1.
    + destruct (code d =? 44)%N eqn:E2; [|discriminate].
      destruct (pelems n r') as [[l' r2]|] eqn:E; [|discriminate]. injection H as <- <-.
      apply IHe in E. destruct E as [Hl Hf]. split; [lia|]. intros m Hm. destruct m as [|m]; [lia|]. cbn [pelems].
      rewrite Hf1 by lia. rewrite Es, E1, E2. rewrite Hf by lia. reflexivity.
  - intros s l r H. cbn [pmembers] in H. pose proof (skip_ws_len s) as Hws0.
    destruct (skip_ws s) as [|c s'] eqn:Es0; [discriminate|]. cbn [String.length] in Hws0.
    destruct (code c =? 34)%N eqn:E0; [|discriminate].
    destruct (pstr s') as [[[e k] r1]|] eqn:Ep; [|discriminate]. pose proof (pstr_len _ _ _ _ Ep) as Hp.
    pose proof (skip_ws_len r1) as Hws1. destruct (skip_ws r1) as [|d r2] eqn:Es1; [discriminate|].
    cbn [String.length] in Hws1. destruct (code d =? 58)%N eqn:E1; [|discriminate].
    destruct (pval n r2) as [[j r3]|] eqn:Ev; [|discriminate]. apply IHv in Ev. destruct Ev as [Hl1 Hf1].
    pose proof (skip_ws_len r3) as Hws. destruct (skip_ws r3) as [|d2 r'] eqn:Es; [discriminate|]. cbn [String.length] in Hws.
    destruct (code d2 =? 125)%N eqn:E2.
    + injection H as <- <-. split; [lia|]. intros m Hm. destruct m as [|m]; [lia|]. cbn [pmembers].
      rewrite Es0, E0, Ep, Es1, E1. rewrite Hf1 by lia. now rewrite Es, E2.
    + destruct (code d2 =? 44)%N eqn:E3; [|discriminate].
      destruct (pmembers n r') as [[l' r5]|] eqn:E; [|discriminate]. injection H as <- <-.
      apply IHm in E. destruct E as [Hl Hf]. split; [lia|]. intros m Hm. destruct m as [|m]; [lia|]. cbn [pmembers].
      rewrite Es0, E0, Ep, Es1, E1. rewrite Hf1 by lia. rewrite Es, E2, E3. rewrite Hf by lia. reflexivity.
Qed.

(** Whatever can be parsed with some fuel is parsed by [parse]. *)
Theorem parse_complete : forall n s j r, pval n s = Some (j, r) -> skip_ws r = "" -> parse s = Some j.
Proof.
  intros n s j r H Hr. apply (proj1 (parse_fuel n)) in H. destruct H as [Hl Hf]. unfold parse.
  rewrite Hf by lia. now rewrite Hr.
Qed.

(** ** Tokens of parsed trees *)

(** Number tokens are numbers (escape flags are arbitrary). *)
Fixpoint num_wf (j : json) : Prop :=
  match j with
  | JNum t => numtok t
  | JArr l => (fix go l := match l with [] => True | x :: r => num_wf x /\ go r end) l
  | JObj l => (fix go l := match l with [] => True | x :: r => num_wf (snd x) /\ go r end) l
  | _ => True
  end.
Lemma num_wf_arr : forall l, num_wf (JArr l) <-> Forall num_wf l.
Proof.
  induction l as [|x l IH]; [split; constructor|]. simpl in *. rewrite IH. split.
  - intros [H1 H2]. now constructor.
  - intros H. inversion H. now split.
Qed.
Lemma num_wf_obj : forall l, num_wf (JObj l) <-> Forall (fun kv => num_wf (snd kv)) l.
Proof.
  induction l as [|x l IH]; [split; constructor|]. simpl in *. rewrite IH. split.
  - intros [H1 H2]. now constructor.
  - intros H. inversion H. now split.
Qed.
Lemma wf_num_wf : forall j, wf_json j -> num_wf j.
Proof.
  apply (json_rect2 (fun j => wf_json j -> num_wf j)); try (intros; exact I).
  - intros t H. exact H.
  - intros l IH H. apply wf_arr in H. apply num_wf_arr. rewrite Forall_forall in *. auto.
  - intros l IH H. apply wf_obj in H. apply num_wf_obj. rewrite Forall_forall in *. auto.
Qed.

Lemma parse_num_wf_aux : forall n,
  (forall s j r, pval n s = Some (j, r) -> num_wf j) /\
  (forall s l r, pelems n s = Some (l, r) -> Forall num_wf l) /\
  (forall s l r, pmembers n s = Some (l, r) -> Forall (fun kv => num_wf (snd kv)) l).
Proof.
  induction n as [|n [IHv [IHe IHm]]]; [split; [|split]; intros; discriminate|]. split; [|split].
  - intros s j r H. cbn [pval] in H. destruct (skip_ws s) as [|c s']; [discriminate|].
    destruct (code c =? 110)%N; [destruct (strip "ull" s'); [injection H as <- <-; exact I|discriminate]|].
    destruct (code c =? 116)%N; [destruct (strip "rue" s'); [injection H as <- <-; exact I|discriminate]|].
    destruct (code c =? 102)%N; [destruct (strip "alse" s'); [injection H as <- <-; exact I|discriminate]|].
    destruct (code c =? 34)%N; [destruct (pstr s') as [[[e t] r']|]; [injection H as <- <-; exact I|discriminate]|].
    destruct (code c =? 91)%N.
    { destruct (skip_ws s') as [|d r']; [discriminate|]. destruct (code d =? 93)%N; [injection H as <- <-; exact I|].
      destruct (pelems n (String d r')) as [[l r2]|] eqn:E; [|discriminate]. injection H as <- <-.
      apply num_wf_arr. now apply IHe in E. }
    destruct (code c =? 123)%N.
    { destruct (skip_ws s') as [|d r']; [discriminate|]. destruct (code d =? 125)%N; [injection H as <- <-; exact I|].
      destruct (pmembers n (String d r')) as [[l r2]|] eqn:E; [|discriminate]. injection H as <- <-.
      apply num_wf_obj. now apply IHm in E. }
    destruct (lex_num (String c s')) as [[t r']|] eqn:E; [|discriminate]. injection H as <- <-.
    now apply lex_num_split in E.
  - intros s l r H. cbn [pelems] in H. destruct (pval n s) as [[j r1]|] eqn:Ev; [|discriminate].
    apply IHv in Ev. destruct (skip_ws r1) as [|d r']; [discriminate|].
    destruct (code d =? 93)%N; [injection H as <- <-; now repeat constructor|].
    destruct (code d =? 44)%N; [|discriminate].
    destruct (pelems n r') as [[l' r2]|] eqn:E; [|discriminate]. injection H as <- <-. constructor; [assumption|].
    now apply IHe in E.
  - intros s l r H. cbn [pmembers] in H. destruct (skip_ws s) as [|c s']; [discriminate|].
    destruct (code c =? 34)%N; [|discriminate]. destruct (pstr s') as [[[e k] r1]|]; [|discriminate].
    destruct (skip_ws r1) as [|d r2]; [discriminate|]. destruct (code d =? 58)%N; [|discriminate].
    destruct (pval n r2) as [[j r3]|] eqn:Ev; [|discriminate]. apply IHv in Ev.
    destruct (skip_ws r3) as [|d2 r']; [discriminate|].
    destruct (code d2 =? 125)%N; [injection H as <- <-; now repeat constructor|].
    destruct (code d2 =? 44)%N; [|discriminate].
    destruct (pmembers n r') as [[l' r5]|] eqn:E; [|discriminate]. injection H as <- <-. constructor; [assumption|].
    now apply IHm in E.
Qed.
Lemma parse_num_wf : forall s j, parse s = Some j -> num_wf j.
Proof.
  intros s j H. unfold parse in H. destruct (pval _ s) as [[j' r]|] eqn:E; [|discriminate].
  destruct (skip_ws r); [|discriminate]. injection H as <-. eapply parse_num_wf_aux; eassumption.
Qed.

(** ** UTF-8 *)

(** All strings of a tree are UTF-8. *)
Fixpoint jutf8 (j : json) : Prop :=
  match j with
  | JStr _ s => utf8_valid s = true
  | JArr l => (fix go l := match l with [] => True | x :: r => jutf8 x /\ go r end) l
  | JObj l => (fix go l := match l with [] => True | x :: r => (utf8_valid (fst x) = true /\ jutf8 (snd x)) /\ go r end) l
  | _ => True
  end.
Lemma jutf8_arr : forall l, jutf8 (JArr l) <-> Forall jutf8 l.
Proof.
  induction l as [|x l IH]; [split; constructor|]. simpl in *. rewrite IH. split.
  - intros [H1 H2]. now constructor.
  - intros H. inversion H. now split.
Qed.
Lemma jutf8_obj : forall l, jutf8 (JObj l) <-> Forall (fun kv => utf8_valid (fst kv) = true /\ jutf8 (snd kv)) l.
Proof.
  induction l as [|x l IH]; [split; constructor|]. simpl in *. rewrite IH. split.
  - intros [H1 H2]. now constructor.
  - intros H. inversion H. now split.
Qed.

Lemma escape_urun : forall s st, ust_ok st -> urun st (escape s) = urun st s.
Proof.
  assert (Hesc : forall c, esc_needed c = true ->
    (code c < 128)%N /\ urun U0 (esc_char c) = Some U0 /\
    exists c1 r1, esc_char c = String c1 r1 /\ (code c1 < 128)%N).
  { intros c H. destruct c as [[] [] [] [] [] [] [] []]; vm_compute in H; try discriminate;
      (split; [reflexivity|split; [reflexivity|]]; eexists _, _; split; [reflexivity|reflexivity]). }
  induction s as [|c s IH]; intros st Hst; [reflexivity|]. cbn [escape urun]. rewrite urun_app.
  destruct (esc_needed c) eqn:E.
  - destruct (Hesc c E) as (Hc & Hu & c1 & r1 & He & Hc1). destruct st as [|lo hi k].
    + rewrite Hu, (ustep_ascii c Hc). now apply IH.
    + simpl in Hst. rewrite He. cbn [urun]. rewrite !ustep_inside by assumption. reflexivity.
  - rewrite esc_char_plain by assumption. cbn [urun]. destruct (ustep st c) eqn:Es; [|reflexivity].
    apply IH. eapply ustep_ok; eassumption.
Qed.

Lemma utf8_quote : forall s, utf8_valid s = true -> utf8_valid (quote s) = true.
Proof.
  intros s H. apply utf8_valid_iff in H. apply utf8_valid_iff. unfold quote. cbn [urun].
  rewrite ustep_ascii by reflexivity. rewrite urun_app, escape_urun by exact I. rewrite H. reflexivity.
Qed.

Lemma utf8_commas : forall l, Forall (fun s => utf8_valid s = true) l -> utf8_valid (commas l) = true.
Proof.
  induction l as [|x l IH]; intros H; [reflexivity|]. inversion H as [|y z H1 H2]; subst.
  rewrite commas_cons. destruct l as [|y l]; [assumption|]. apply utf8_app; [assumption|].
  rewrite utf8_ascii_cons by reflexivity. now apply IH.
Qed.

Definition num_char (c : ascii) : bool :=
  is_digit c || (code c =? 43)%N || (code c =? 45)%N || (code c =? 46)%N || (code c =? 69)%N || (code c =? 101)%N.
Lemma digit_num_char : forall s, sall is_digit s = true -> sall num_char s = true.
Proof.
  induction s as [|c s IH]; simpl; intros H; [reflexivity|]. apply andb_true_iff in H. destruct H as [H1 H2].
  unfold num_char at 1. rewrite H1. simpl. auto.
Qed.
Lemma numtok_chars : forall t, numtok t -> sall num_char t = true.
Proof.
  intros t H. unfold numtok, lex_num in H.
  set (sg := match t with String c r => if (code c =? 45)%N then (String c "", r) else ("", t) | "" => ("", "") end) in *.
  assert (Hsg : sall num_char (fst sg) = true).
  { subst sg. destruct t as [|c t]; [reflexivity|]. destruct (code c =? 45)%N eqn:E; [|reflexivity].
    cbn [fst sall]. unfold num_char. rewrite E. now rewrite !orb_true_r. }
  clearbody sg. destruct sg as [sg s1]. simpl in Hsg.
  destruct (lex_int s1) as [[i s2]|] eqn:E1; [|discriminate].
  destruct (lex_frac s2) as [[f s3]|] eqn:E2; [|discriminate].
  destruct (lex_exp s3) as [[e s4]|] eqn:E3; [|discriminate]. injection H as <- ->.
  rewrite !sall_app. rewrite Hsg. apply lex_int_split in E1. destruct E1 as [_ [c [r [-> [Hc Hr]]]]].
  rewrite (digit_num_char (String c r)) by (cbn [sall]; now rewrite Hc, Hr). simpl.
  apply andb_true_iff. split.
  - destruct s2 as [|c2 s2]; cbn [lex_frac] in E2; [injection E2 as <- <-; reflexivity|].
    destruct (code c2 =? 46)%N eqn:E; [|injection E2 as <- <-; reflexivity].
    pose proof (span_digits_digits s2) as Hd. destruct (span_digits s2) as [d r2]. destruct d as [|x d]; [discriminate|].
    injection E2 as <- <-. cbn [sall]. simpl fst in Hd. apply digit_num_char in Hd. cbn [sall] in Hd. rewrite Hd.
    unfold num_char. rewrite E. now rewrite !orb_true_r.
  - destruct s3 as [|c3 s3]; cbn [lex_exp] in E3; [injection E3 as <-; reflexivity|].
    destruct ((code c3 =? 101) || (code c3 =? 69))%N eqn:E; [|discriminate].
    assert (Hc3 : num_char c3 = true).
    { unfold num_char. apply orb_true_iff in E. destruct E as [->| ->]; now rewrite ?orb_true_r. }
    destruct s3 as [|p s3]; [discriminate|]. destruct ((code p =? 43) || (code p =? 45))%N eqn:Ep.
    + pose proof (span_digits_digits s3) as Hd. destruct (span_digits s3) as [d r2]. destruct d as [|x d]; [discriminate|].
      injection E3 as <- _. simpl fst in Hd. apply digit_num_char in Hd. cbn [sall append] in *. rewrite Hc3, Hd.
      unfold num_char. apply orb_true_iff in Ep. destruct Ep as [->| ->]; now rewrite ?orb_true_r.
    + pose proof (span_digits_digits (String p s3)) as Hd. destruct (span_digits (String p s3)) as [d r2].
      destruct d as [|x d]; [discriminate|].
      injection E3 as <- _. simpl fst in Hd. apply digit_num_char in Hd. cbn [sall append] in *. now rewrite Hc3, Hd.
Qed.

Lemma num_char_ascii : forall c, num_char c = true -> (32 <= code c < 127)%N.
Proof.
  intros c H. unfold num_char, is_digit in H.
  rewrite !orb_true_iff, andb_true_iff, !N.eqb_eq, !N.leb_le in H. lia.
Qed.

Lemma sall_impl : forall (f g : ascii -> bool) s, (forall c, f c = true -> g c = true) -> sall f s = true -> sall g s = true.
Proof.
  intros f g s Hfg. induction s as [|c s IH]; simpl; intros H; [reflexivity|].
  apply andb_true_iff in H. destruct H as [H1 H2]. rewrite (Hfg _ H1). auto.
Qed.

Theorem print_utf8 : forall j, wf_json j -> jutf8 j -> utf8_valid (print j) = true.
Proof.
  apply (json_rect2 (fun j => wf_json j -> jutf8 j -> utf8_valid (print j) = true)).
  - reflexivity.
  - intros []; reflexivity.
  - intros t Hw _. cbn [print]. apply utf8_ascii. eapply sall_impl; [|apply numtok_chars; exact Hw].
    intros c Hc. apply num_char_ascii in Hc. apply N.ltb_lt. lia.
  - intros e s _ Hu. cbn [print]. now apply utf8_quote.
  - intros l IH Hw Hu. apply wf_arr in Hw. apply jutf8_arr in Hu. cbn [print]. rewrite utf8_ascii_cons by reflexivity.
    apply utf8_app; [|reflexivity]. apply utf8_commas. rewrite Forall_forall in *. intros x Hx.
    apply in_map_iff in Hx. destruct Hx as [j [<- Hj]]. auto.
  - intros l IH Hw Hu. apply wf_obj in Hw. apply jutf8_obj in Hu. cbn [print]. rewrite utf8_ascii_cons by reflexivity.
    apply utf8_app; [|reflexivity]. apply utf8_commas. rewrite Forall_forall in *. intros x Hx.
    apply in_map_iff in Hx. destruct Hx as [j [<- Hj]]. destruct (Hu _ Hj) as [Hu1 Hu2].
    apply utf8_app; [now apply utf8_quote|]. rewrite utf8_ascii_cons by reflexivity. auto.
Qed.

Lemma parse_slice_print : forall j, wf_json j -> jutf8 j -> parse_slice (print j) = Some j.
Proof. intros j Hw Hu. unfold parse_slice. rewrite print_utf8 by assumption. now apply parse_print. Qed.

(** No control characters. *)
Definition printable (c : ascii) : bool := (32 <=? code c)%N.
Lemma escape_printable : forall s, sall printable (escape s) = true.
Proof.
  induction s as [|c s IH]; [reflexivity|]. cbn [escape]. rewrite sall_app, IH, andb_true_r.
  destruct c as [[] [] [] [] [] [] [] []]; reflexivity.
Qed.
Lemma quote_printable : forall s, sall printable (quote s) = true.
Proof. intros s. unfold quote. cbn [sall]. rewrite sall_app, escape_printable. reflexivity. Qed.
Lemma commas_printable : forall l, Forall (fun s => sall printable s = true) l -> sall printable (commas l) = true.
Proof.
  induction l as [|x l IH]; intros H; [reflexivity|]. inversion H as [|y z H1 H2]; subst.
  rewrite commas_cons. destruct l as [|y l]; [assumption|]. rewrite sall_app, H1. cbn [sall]. rewrite IH by assumption. reflexivity.
Qed.
Theorem print_printable : forall j, num_wf j -> sall printable (print j) = true.
Proof.
  apply (json_rect2 (fun j => num_wf j -> sall printable (print j) = true)).
  - reflexivity.
  - intros []; reflexivity.
  - intros t Hw. cbn [print]. eapply sall_impl; [|apply numtok_chars; exact Hw].
    intros c Hc. apply num_char_ascii in Hc. apply N.leb_le. lia.
  - intros e s _. cbn [print]. apply quote_printable.
  - intros l IH Hw. apply num_wf_arr in Hw. cbn [print sall]. rewrite sall_app. cbn [sall]. rewrite andb_true_r, commas_printable.
    + reflexivity.
    + rewrite Forall_forall in *. intros x Hx. apply in_map_iff in Hx. destruct Hx as [j [<- Hj]]. auto.
  - intros l IH Hw. apply num_wf_obj in Hw. cbn [print sall]. rewrite sall_app. cbn [sall]. rewrite andb_true_r, commas_printable.
    + reflexivity.
    + rewrite Forall_forall in *. intros x Hx. apply in_map_iff in Hx. destruct Hx as [j [<- Hj]].
      rewrite sall_app, quote_printable. cbn [sall]. rewrite IH by auto. reflexivity.
Qed.

(** Parsed strings are UTF-8 if the text is. *)
Lemma hexval_bound : forall c n, hexval c = Some n -> (n < 16)%N.
Proof.
  intros c n H. unfold hexval in H.
  destruct ((48 <=? code c) && (code c <=? 57))%N eqn:E1.
  { injection H as <-. rewrite andb_true_iff, !N.leb_le in E1. lia. }
  destruct ((97 <=? code c) && (code c <=? 102))%N eqn:E2.
  { injection H as <-. rewrite andb_true_iff, !N.leb_le in E2. lia. }
  destruct ((65 <=? code c) && (code c <=? 70))%N eqn:E3; [|discriminate].
  injection H as <-. rewrite andb_true_iff, !N.leb_le in E3. lia.
Qed.
Lemma hexval_ascii : forall c n, hexval c = Some n -> (code c < 128)%N.
Proof.
  intros c n H. unfold hexval in H.
  destruct ((48 <=? code c) && (code c <=? 57))%N eqn:E1.
  { rewrite andb_true_iff, !N.leb_le in E1. lia. }
  destruct ((97 <=? code c) && (code c <=? 102))%N eqn:E2.
  { rewrite andb_true_iff, !N.leb_le in E2. lia. }
  destruct ((65 <=? code c) && (code c <=? 70))%N eqn:E3; [|discriminate].
  rewrite andb_true_iff, !N.leb_le in E3. lia.
Qed.
Lemma hex4_bound : forall a b c d n, hex4 a b c d = Some n ->
  (n < 65536)%N /\ (code a < 128)%N /\ (code b < 128)%N /\ (code c < 128)%N /\ (code d < 128)%N.
Proof.
  intros a b c d n H. unfold hex4 in H.
  destruct (hexval a) as [x|] eqn:E1; [|discriminate]. destruct (hexval b) as [y|] eqn:E2; [|discriminate].
  destruct (hexval c) as [z|] eqn:E3; [|discriminate]. destruct (hexval d) as [t|] eqn:E4; [|discriminate].
  injection H as <-. pose proof (hexval_bound _ _ E1). pose proof (hexval_bound _ _ E2).
  pose proof (hexval_bound _ _ E3). pose proof (hexval_bound _ _ E4).
  repeat split; try lia; eapply hexval_ascii; eassumption.
Qed.

Lemma urun_low : forall c s st, ust_ok st -> (code c < 128)%N -> urun st (String c s) = Some U0 -> st = U0 /\ urun U0 s = Some U0.
Proof.
  intros c s st Ho Hc H. cbn [urun] in H. destruct (ustep st c) as [st'|] eqn:E; [|discriminate].
  destruct (ustep_low _ _ _ Ho Hc E) as [-> ->]. now split.
Qed.

Lemma simple_escape_ascii : forall e c, simple_escape e = Some c -> (code e < 128)%N /\ (code c < 128)%N.
Proof.
  intros e c H. destruct e as [[] [] [] [] [] [] [] []]; vm_compute in H; try discriminate;
    injection H as <-; split; reflexivity.
Qed.

Lemma pstr_utf8 : forall s st e t r, ust_ok st -> pstr s = Some (e, t, r) -> urun st s = Some U0 ->
  urun st t = Some U0 /\ urun U0 r = Some U0.
Proof.
  apply (string_len_ind (fun s => forall st e t r, ust_ok st -> pstr s = Some (e, t, r) -> urun st s = Some U0 ->
    urun st t = Some U0 /\ urun U0 r = Some U0)).
  intros [|c s] IH st e t r Ho H Hu; [discriminate|]. cbn [pstr] in H.
  destruct (N.eqb_spec (code c) 34) as [Ec|Ec].
  { injection H as <- <- <-. apply urun_low in Hu; [|assumption|lia]. destruct Hu as [-> Hu]. now split. }
  destruct (N.eqb_spec (code c) 92) as [Ec2|Ec2].
  - apply urun_low in Hu; [|assumption|lia]. destruct Hu as [-> Hu].
    destruct s as [|e1 r1]; [discriminate|]. destruct (N.eqb_spec (code e1) 117) as [Eu|Eu].
    + apply urun_low in Hu; [|exact I|lia]. destruct Hu as [_ Hu].
      destruct r1 as [|h1 [|h2 [|h3 [|h4 r2]]]]; try discriminate.
      destruct (hex4 h1 h2 h3 h4) as [n|] eqn:Eh; [|discriminate]. apply hex4_bound in Eh.
      destruct Eh as (Hn & H1 & H2 & H3 & H4).
      do 4 (apply urun_low in Hu; [|exact I|assumption]; destruct Hu as [_ Hu]).
      destruct (is_low_surr n) eqn:El; [discriminate|]. destruct (is_high_surr n) eqn:Eh.
      * destruct r2 as [|b [|u [|k1 [|k2 [|k3 [|k4 r3]]]]]]; try discriminate.
        destruct ((code b =? 92) && (code u =? 117))%N eqn:Eb; [|discriminate].
        apply andb_true_iff in Eb. rewrite !N.eqb_eq in Eb. destruct Eb as [Eb1 Eb2].
        destruct (hex4 k1 k2 k3 k4) as [n2|] eqn:Eh2; [|discriminate]. destruct (is_low_surr n2) eqn:El2; [|discriminate].
        apply hex4_bound in Eh2. destruct Eh2 as (Hn2 & G1 & G2 & G3 & G4).
        apply urun_low in Hu; [|exact I|lia]; destruct Hu as [_ Hu].
        apply urun_low in Hu; [|exact I|lia]; destruct Hu as [_ Hu].
        do 4 (apply urun_low in Hu; [|exact I|assumption]; destruct Hu as [_ Hu]).
        apply push_some in H. destruct H as (e' & t' & H & _ & ->).
        destruct (IH r3 ltac:(simpl; lia) U0 e' t' r I H Hu) as [Ht Hr]. split; [|assumption].
        unfold is_high_surr, is_low_surr in *. rewrite andb_true_iff, !N.leb_le in Eh, El2.
        rewrite urun_app, utf8_encode_valid; [assumption| |]; unfold surr_pair; lia.
      * apply push_some in H. destruct H as (e' & t' & H & _ & ->).
        destruct (IH r2 ltac:(simpl; lia) U0 e' t' r I H Hu) as [Ht Hr]. split; [|assumption].
        unfold is_high_surr, is_low_surr in *. rewrite andb_false_iff, !N.leb_gt in Eh, El.
        rewrite urun_app, utf8_encode_valid; [assumption| |]; lia.
    + destruct (simple_escape e1) as [c'|] eqn:Es; [|discriminate]. apply simple_escape_ascii in Es. destruct Es as [Es1 Es2].
      apply urun_low in Hu; [|exact I|assumption]. destruct Hu as [_ Hu].
      apply push_some in H. destruct H as (e' & t' & H & _ & ->).
      destruct (IH r1 ltac:(simpl; lia) U0 e' t' r I H Hu) as [Ht Hr]. split; [|assumption].
      cbn [append urun]. now rewrite ustep_ascii.
  - destruct (code c <? 32)%N; [discriminate|].
    apply push_some in H. destruct H as (e' & t' & H & _ & ->). cbn [urun append] in *.
    destruct (ustep st c) as [st'|] eqn:Es; [|discriminate].
    apply (IH s ltac:(simpl; lia) st' e' t' r); [eapply ustep_ok; eassumption|assumption|assumption].
Qed.

Lemma skip_ws_utf8 : forall s, urun U0 s = Some U0 -> urun U0 (skip_ws s) = Some U0.
Proof.
  induction s as [|c s IH]; intros H; [exact H|]. cbn [skip_ws]. destruct (is_ws c) eqn:E; [|assumption].
  apply IH. unfold is_ws in E. rewrite !orb_true_iff, !N.eqb_eq in E.
  apply urun_low in H; [|exact I|lia]. tauto.
Qed.
Lemma strip_utf8 : forall p s r, sall is_ascii p = true -> strip p s = Some r -> urun U0 s = Some U0 -> urun U0 r = Some U0.
Proof.
  induction p as [|a p IH]; intros s r Hp H Hu; simpl in H; [now injection H as <-|].
  destruct s as [|b s]; [discriminate|]. destruct (Ascii.eqb_spec a b) as [->|]; [|discriminate].
  cbn [sall] in Hp. apply andb_true_iff in Hp. destruct Hp as [Hb Hp]. apply N.ltb_lt in Hb.
  apply urun_low in Hu; [|exact I|assumption]. destruct Hu as [_ Hu]. eapply IH; eassumption.
Qed.
Lemma lex_num_utf8 : forall s t r, lex_num s = Some (t, r) -> urun U0 s = Some U0 -> urun U0 r = Some U0.
Proof.
  intros s t r H Hu. apply lex_num_split in H. destruct H as [-> Ht]. rewrite urun_app in Hu.
  assert (Ha : utf8_valid t = true).
  { apply utf8_ascii. eapply sall_impl; [|apply numtok_chars; exact Ht].
    intros c Hc. apply num_char_ascii in Hc. apply N.ltb_lt. lia. }
  apply utf8_valid_iff in Ha. now rewrite Ha in Hu.
Qed.

Lemma parse_utf8_aux : forall n,
  (forall s j r, pval n s = Some (j, r) -> urun U0 s = Some U0 -> jutf8 j /\ urun U0 r = Some U0) /\
  (forall s l r, pelems n s = Some (l, r) -> urun U0 s = Some U0 -> Forall jutf8 l /\ urun U0 r = Some U0) /\
  (forall s l r, pmembers n s = Some (l, r) -> urun U0 s = Some U0 ->
     Forall (fun kv => utf8_valid (fst kv) = true /\ jutf8 (snd kv)) l /\ urun U0 r = Some U0).
Proof.
  induction n as [|n [IHv [IHe IHm]]]; [split; [|split]; intros; discriminate|]. split; [|split].
  - intros s j r H Hu. cbn [pval] in H. apply skip_ws_utf8 in Hu. destruct (skip_ws s) as [|c s']; [discriminate|].
    destruct (N.eqb_spec (code c) 110) as [E1|E1].
    { destruct (strip "ull" s') eqn:E; [injection H as <- <-|discriminate]. apply urun_low in Hu; [|exact I|lia].
      split; [exact I|]. eapply strip_utf8; [|exact E|tauto]. reflexivity. }
    destruct (N.eqb_spec (code c) 116) as [E2|E2].
    { destruct (strip "rue" s') eqn:E; [injection H as <- <-|discriminate]. apply urun_low in Hu; [|exact I|lia].
      split; [exact I|]. eapply strip_utf8; [|exact E|tauto]. reflexivity. }
    destruct (N.eqb_spec (code c) 102) as [E3|E3].
    { destruct (strip "alse" s') eqn:E; [injection H as <- <-|discriminate]. apply urun_low in Hu; [|exact I|lia].
      split; [exact I|]. eapply strip_utf8; [|exact E|tauto]. reflexivity. }
    destruct (N.eqb_spec (code c) 34) as [E4|E4].
    { destruct (pstr s') as [[[e t] r']|] eqn:E; [injection H as <- <-|discriminate].
      apply urun_low in Hu; [|exact I|lia]. destruct Hu as [_ Hu].
      destruct (pstr_utf8 _ U0 _ _ _ I E Hu) as [Ht Hr]. split; [|assumption]. simpl. now apply utf8_valid_iff. }
    destruct (N.eqb_spec (code c) 91) as [E5|E5].
    { apply urun_low in Hu; [|exact I|lia]. destruct Hu as [_ Hu]. apply skip_ws_utf8 in Hu.
      destruct (skip_ws s') as [|d r']; [discriminate|]. destruct (N.eqb_spec (code d) 93) as [Ed|Ed].
      - injection H as <- <-. apply urun_low in Hu; [|exact I|lia]. split; [exact I|tauto].
      - destruct (pelems n (String d r')) as [[l r2]|] eqn:E; [|discriminate]. injection H as <- <-.
        destruct (IHe _ _ _ E Hu) as [H1 H2]. split; [now apply jutf8_arr|assumption]. }
    destruct (N.eqb_spec (code c) 123) as [E6|E6].
    { apply urun_low in Hu; [|exact I|lia]. destruct Hu as [_ Hu]. apply skip_ws_utf8 in Hu.
      destruct (skip_ws s') as [|d r']; [discriminate|]. destruct (N.eqb_spec (code d) 125) as [Ed|Ed].
      - injection H as <- <-. apply urun_low in Hu; [|exact I|lia]. split; [exact I|tauto].
      - destruct (pmembers n (String d r')) as [[l r2]|] eqn:E; [|discriminate]. injection H as <- <-.
        destruct (IHm _ _ _ E Hu) as [H1 H2]. split; [now apply jutf8_obj|assumption]. }
    destruct (lex_num (String c s')) as [[t r']|] eqn:E; [|discriminate]. injection H as <- <-.
    split; [exact I|]. eapply lex_num_utf8; eassumption.
  - intros s l r H Hu. cbn [pelems] in H. destruct (pval n s) as [[j r1]|] eqn:Ev; [|discriminate].
    destruct (IHv _ _ _ Ev Hu) as [Hj Hr1]. apply skip_ws_utf8 in Hr1. destruct (skip_ws r1) as [|d r']; [discriminate|].
    destruct (N.eqb_spec (code d) 93) as [E1|E1].
    { injection H as <- <-. apply urun_low in Hr1; [|exact I|lia]. split; [now repeat constructor|tauto]. }
    destruct (N.eqb_spec (code d) 44) as [E2|E2]; [|discriminate]. apply urun_low in Hr1; [|exact I|lia]. destruct Hr1 as [_ Hr1].
    destruct (pelems n r') as [[l' r2]|] eqn:E; [|discriminate]. injection H as <- <-.
    destruct (IHe _ _ _ E Hr1) as [H1 H2]. split; [now constructor|assumption].
  - intros s l r H Hu. cbn [pmembers] in H. apply skip_ws_utf8 in Hu. destruct (skip_ws s) as [|c s']; [discriminate|].
    destruct (N.eqb_spec (code c) 34) as [E0|E0]; [|discriminate]. apply urun_low in Hu; [|exact I|lia]. destruct Hu as [_ Hu].
    destruct (pstr s') as [[[e k] r1]|] eqn:Ep; [|discriminate]. destruct (pstr_utf8 _ U0 _ _ _ I Ep Hu) as [Hk Hr1].
    apply skip_ws_utf8 in Hr1. destruct (skip_ws r1) as [|d r2]; [discriminate|].
    destruct (N.eqb_spec (code d) 58) as [E1|E1]; [|discriminate]. apply urun_low in Hr1; [|exact I|lia]. destruct Hr1 as [_ Hr1].
    destruct (pval n r2) as [[j r3]|] eqn:Ev; [|discriminate]. destruct (IHv _ _ _ Ev Hr1) as [Hj Hr3].
    apply skip_ws_utf8 in Hr3. destruct (skip_ws r3) as [|d2 r']; [discriminate|]. apply utf8_valid_iff in Hk.
    destruct (N.eqb_spec (code d2) 125) as [E2|E2].
    { injection H as <- <-. apply urun_low in Hr3; [|exact I|lia]. split; [now repeat constructor|tauto]. }
    destruct (N.eqb_spec (code d2) 44) as [E3|E3]; [|discriminate]. apply urun_low in Hr3; [|exact I|lia]. destruct Hr3 as [_ Hr3].
    destruct (pmembers n r') as [[l' r5]|] eqn:E; [|discriminate]. injection H as <- <-.
    destruct (IHm _ _ _ E Hr3) as [H1 H2]. split; [now constructor|assumption].
Qed.
Theorem parse_utf8 : forall s j, utf8_valid s = true -> parse s = Some j -> jutf8 j.
Proof.
  intros s j Hu H. apply utf8_valid_iff in Hu. unfold parse in H.
  destruct (pval _ s) as [[j' r]|] eqn:E; [|discriminate].
  destruct (skip_ws r); [|discriminate]. injection H as <-. eapply parse_utf8_aux; eassumption.
Qed.
