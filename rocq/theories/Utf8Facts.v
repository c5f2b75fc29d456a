(** Facts about Utf8.v. *)

From Coq Require Import Ascii String Arith NArith ZArith ZifyN List Bool Lia.
From Verif Require Import Bytes Utf8 BytesFacts.
Import ListNotations.
Local Open Scope string_scope.
Local Open Scope N_scope.

Ltac Zify.zify_post_hook ::= Z.div_mod_to_equations.

Lemma urun_app : forall a b st,
  urun st (a ++ b) = match urun st a with Some st' => urun st' b | None => None end.
Proof.
  induction a as [|c a IH]; intros b st; simpl; [reflexivity|].
  destruct (ustep st c); [apply IH|reflexivity].
Qed.

Lemma utf8_valid_iff : forall s, utf8_valid s = true <-> urun U0 s = Some U0.
Proof.
  intros s. unfold utf8_valid. destruct (urun U0 s) as [[|lo hi k]|]; split; intros H; try reflexivity; discriminate.
Qed.

Lemma utf8_app : forall a b, utf8_valid a = true -> utf8_valid b = true -> utf8_valid (a ++ b) = true.
Proof. intros a b Ha Hb. apply utf8_valid_iff in Ha, Hb. apply utf8_valid_iff. rewrite urun_app, Ha. exact Hb. Qed.

Lemma utf8_app_inv : forall a b, utf8_valid a = true -> utf8_valid (a ++ b) = true -> utf8_valid b = true.
Proof. intros a b Ha Hab. apply utf8_valid_iff in Ha, Hab. apply utf8_valid_iff. rewrite urun_app, Ha in Hab. exact Hab. Qed.

Definition is_ascii (c : ascii) : bool := code c <? 128.

Lemma ustep_ascii : forall c, code c < 128 -> ustep U0 c = Some U0.
Proof. intros c H. unfold ustep. apply N.ltb_lt in H. now rewrite H. Qed.

Lemma utf8_ascii_cons : forall c s, code c < 128 -> utf8_valid (String c s) = utf8_valid s.
Proof. intros c s H. unfold utf8_valid. cbn [urun]. now rewrite ustep_ascii. Qed.

Lemma utf8_ascii : forall s, sall is_ascii s = true -> utf8_valid s = true.
Proof.
  induction s as [|c s IH]; intros H; [reflexivity|]. cbn [sall] in H. apply andb_true_iff in H.
  destruct H as [Hc Hs]. rewrite utf8_ascii_cons by now apply N.ltb_lt. now apply IH.
Qed.

(** States the validator can be in. *)
Definition ust_ok (st : ustate) : Prop := match st with U0 => True | Un lo _ _ => 128 <= lo end.

Lemma ustep_ok : forall st c st', ust_ok st -> ustep st c = Some st' -> ust_ok st'.
Proof.
  intros [|lo hi k] c st' Ho H; unfold ustep in H.
  - repeat match type of H with context [if ?b then _ else _] => destruct b end;
      try discriminate; injection H as <-; simpl; lia || exact I.
  - destruct ((lo <=? code c) && (code c <=? hi)); [|discriminate].
    destruct k; injection H as <-; simpl; lia || exact I.
Qed.

(** Inside a character only bytes from 128 on are allowed. *)
Lemma ustep_inside : forall lo hi k c, 128 <= lo -> code c < 128 -> ustep (Un lo hi k) c = None.
Proof.
  intros lo hi k c Hl Hc. unfold ustep. destruct (N.leb_spec lo (code c)); [lia|reflexivity].
Qed.

Lemma ustep_low : forall st c st', ust_ok st -> code c < 128 -> ustep st c = Some st' -> st = U0 /\ st' = U0.
Proof.
  intros [|lo hi k] c st' Ho Hc H.
  - rewrite ustep_ascii in H by assumption. injection H as <-. now split.
  - simpl in Ho. rewrite ustep_inside in H by assumption. discriminate.
Qed.

(** Validity of encoded code points. *)
Lemma utf8_encode_valid : forall n, n < 1114112 -> (n < 55296 \/ 57343 < n) ->
  urun U0 (utf8_encode n) = Some U0.
Proof.
  intros n Hn Hs. unfold utf8_encode.
  destruct (N.ltb_spec n 128) as [H1|H1].
  { cbn [urun]. rewrite ustep_ascii; [reflexivity|]. rewrite code_chr; lia. }
  assert (Hcont : forall x lo hi k, lo <= x -> x <= hi -> x < 256 ->
    ustep (Un lo hi k) (chr x) = match k with O => Some U0 | S k' => Some (Un 128 191 k') end).
  { intros x lo hi k Hlo Hhi Hx. unfold ustep. rewrite code_chr by assumption.
    apply N.leb_le in Hlo, Hhi. now rewrite Hlo, Hhi. }
  destruct (N.ltb_spec n 2048) as [H2|H2].
  { cbn [urun]. unfold ustep at 1. rewrite code_chr by lia.
    destruct (N.ltb_spec (192 + n / 64) 128); [lia|].
    replace ((194 <=? 192 + n / 64) && (192 + n / 64 <=? 223)) with true
      by (symmetry; apply andb_true_iff; split; apply N.leb_le; lia).
    rewrite Hcont by lia. reflexivity. }
  destruct (N.ltb_spec n 65536) as [H3|H3].
  { cbn [urun]. unfold ustep at 1. rewrite code_chr by lia.
    set (b := 224 + n / 4096). assert (Hb : b = 224 + n / 4096) by reflexivity. clearbody b.
    destruct (N.ltb_spec b 128); [lia|].
    replace ((194 <=? b) && (b <=? 223)) with false
      by (symmetry; apply andb_false_iff; right; apply N.leb_gt; lia).
    destruct (N.eqb_spec b 224).
    { rewrite Hcont by lia. rewrite Hcont by lia. reflexivity. }
    destruct ((225 <=? b) && (b <=? 236)) eqn:Em.
    { rewrite Hcont by lia. rewrite Hcont by lia. reflexivity. }
    destruct (N.eqb_spec b 237).
    { rewrite Hcont by lia. rewrite Hcont by lia. reflexivity. }
    apply andb_false_iff in Em. rewrite !N.leb_gt in Em.
    replace ((238 <=? b) && (b <=? 239)) with true
      by (symmetry; apply andb_true_iff; split; apply N.leb_le; lia).
    rewrite Hcont by lia. rewrite Hcont by lia. reflexivity. }
  cbn [urun]. unfold ustep at 1. rewrite code_chr by lia.
  set (b := 240 + n / 262144). assert (Hb : b = 240 + n / 262144) by reflexivity. clearbody b.
  destruct (N.ltb_spec b 128); [lia|].
  replace ((194 <=? b) && (b <=? 223)) with false
    by (symmetry; apply andb_false_iff; right; apply N.leb_gt; lia).
  destruct (N.eqb_spec b 224); [lia|].
  replace ((225 <=? b) && (b <=? 236)) with false
    by (symmetry; apply andb_false_iff; right; apply N.leb_gt; lia).
  destruct (N.eqb_spec b 237); [lia|].
  replace ((238 <=? b) && (b <=? 239)) with false
    by (symmetry; apply andb_false_iff; right; apply N.leb_gt; lia).
  destruct (N.eqb_spec b 240).
  { rewrite Hcont by lia. rewrite Hcont by lia. rewrite Hcont by lia. reflexivity. }
  destruct (N.leb_spec 241 b); [|lia]. destruct (N.leb_spec b 243); cbn [andb].
  { rewrite Hcont by lia. rewrite Hcont by lia. rewrite Hcont by lia. reflexivity. }
  destruct (N.eqb_spec b 244); [|lia].
  rewrite Hcont by lia. rewrite Hcont by lia. rewrite Hcont by lia. reflexivity.
Qed.
