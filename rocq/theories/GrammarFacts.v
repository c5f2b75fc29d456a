(** The parser of Json.v reads exactly the grammar of SpecJson.v; the validator of Utf8.v accepts exactly UTF-8. *)

From Coq Require Import Ascii String Arith NArith ZArith ZifyN List Bool Lia.
From Verif Require Import Bytes Utf8 Json SpecText SpecJson BytesFacts Utf8Facts JsonFacts RegexFacts.
Import ListNotations.
Local Open Scope string_scope.

Ltac Zify.zify_post_hook ::= Z.div_mod_to_equations.

(** ** UTF-8 *)

Lemma u8_encode : forall n u, utf8_of n u -> utf8_encode n = u /\ (n < 1114112)%N /\ ~ (55296 <= n <= 57343)%N.
Proof.
  intros n u H. destruct H as [a Ha|a b Ha Hb Hn|a b c Ha Hb Hc Hn Hs|a b c d Ha Hb Hc Hd Hn]; unfold utf8_encode.
  - destruct (N.ltb_spec a 128); [|lia]. split; [reflexivity|lia].
  - destruct (N.ltb_spec (a * 64 + b) 128); [lia|]. destruct (N.ltb_spec (a * 64 + b) 2048); [|lia].
    replace ((a * 64 + b) / 64)%N with a by lia. replace ((a * 64 + b) mod 64)%N with b by lia. split; [reflexivity|lia].
  - set (n := ((a * 64 + b) * 64 + c)%N) in *. assert (En : n = ((a * 64 + b) * 64 + c)%N) by reflexivity. clearbody n.
    destruct (N.ltb_spec n 128); [lia|]. destruct (N.ltb_spec n 2048); [lia|]. destruct (N.ltb_spec n 65536); [|lia].
    replace (n / 4096)%N with a by lia. replace (n / 64)%N with (a * 64 + b)%N by lia.
    replace ((a * 64 + b) mod 64)%N with b by lia. replace (n mod 64)%N with c by lia. split; [reflexivity|lia].
  - set (n := (((a * 64 + b) * 64 + c) * 64 + d)%N) in *. assert (En : n = (((a * 64 + b) * 64 + c) * 64 + d)%N) by reflexivity. clearbody n.
    destruct (N.ltb_spec n 128); [lia|]. destruct (N.ltb_spec n 2048); [lia|]. destruct (N.ltb_spec n 65536); [lia|].
    replace (n / 262144)%N with a by lia. replace (n / 4096)%N with (a * 64 + b)%N by lia. replace (n / 64)%N with ((a * 64 + b) * 64 + c)%N by lia.
    replace ((a * 64 + b) mod 64)%N with b by lia. replace (((a * 64 + b) * 64 + c) mod 64)%N with c by lia.
    replace (n mod 64)%N with d by lia. split; [reflexivity|lia].
Qed.

Lemma encode_u8 : forall n, (n < 1114112)%N -> ~ (55296 <= n <= 57343)%N -> utf8_of n (utf8_encode n).
Proof.
  intros n Hn Hs. unfold utf8_encode. destruct (N.ltb_spec n 128) as [H1|H1]; [now constructor|].
  destruct (N.ltb_spec n 2048) as [H2|H2].
  { pose proof (u8_two (n / 64) (n mod 64)) as X. replace (n / 64 * 64 + n mod 64)%N with n in X by lia. apply X; lia. }
  destruct (N.ltb_spec n 65536) as [H3|H3].
  { pose proof (u8_three (n / 4096) ((n / 64) mod 64) (n mod 64)) as X.
    replace ((n / 4096 * 64 + (n / 64) mod 64) * 64 + n mod 64)%N with n in X by lia. apply X; lia. }
  pose proof (u8_four (n / 262144) ((n / 4096) mod 64) ((n / 64) mod 64) (n mod 64)) as X.
  replace (((n / 262144 * 64 + (n / 4096) mod 64) * 64 + (n / 64) mod 64) * 64 + n mod 64)%N with n in X by lia. apply X; lia.
Qed.

Lemma utf8_text_valid : forall s, utf8_text s -> utf8_valid s = true.
Proof.
  intros s H. induction H as [|n u s Hu Hs IH]; [reflexivity|]. apply utf8_app; [|exact IH].
  apply u8_encode in Hu. destruct Hu as [<- [H1 H2]]. apply utf8_valid_iff. apply utf8_encode_valid; lia.
Qed.

Lemma urun_un : forall lo hi k s st, urun (Un lo hi k) s = Some st -> st = U0 ->
  exists c r, s = String c r /\ (lo <= code c <= hi)%N /\ urun (match k with O => U0 | S k' => Un 128 191 k' end) r = Some U0.
Proof.
  intros lo hi k [|c r] st H ->; [discriminate|]. cbn [urun ustep] in H. exists c, r. split; [reflexivity|].
  destruct ((lo <=? code c)%N && (code c <=? hi)%N) eqn:E; [|discriminate]. apply andb_true_iff in E. rewrite !N.leb_le in E.
  split; [exact E|]. destruct k; exact H.
Qed.

Lemma chr_of : forall c n, code c = n -> c = chr n.
Proof. intros c n <-. now rewrite chr_code. Qed.

Lemma utf8_valid_text : forall s, utf8_valid s = true -> utf8_text s.
Proof.
  apply (string_len_ind (fun s => utf8_valid s = true -> utf8_text s)). intros s IH H. apply utf8_valid_iff in H.
  destruct s as [|c s]; [constructor|]. pose proof (code_lt c) as Hc. cbn [urun] in H.
  assert (One : forall n u r, utf8_of n u -> String c s = u ++ r -> urun U0 r = Some U0 -> (String.length r < String.length (String c s))%nat -> utf8_text (String c s)).
  { intros n u r Hu E Hr Hl. rewrite E. apply ut_cons with (n := n); [exact Hu|]. apply IH; [exact Hl|]. now apply utf8_valid_iff. }
  unfold ustep in H. set (x := code c) in *. assert (Ex : x = code c) by reflexivity. clearbody x.
  destruct (N.ltb_spec x 128) as [L|L].
  { apply (One x (String (chr x) "") s); [now constructor|cbn [append]; now rewrite <- (chr_of c x)|exact H|cbn [String.length]; lia]. }
  assert (Two : (x - 192 < 32)%N -> (128 <= (x - 192) * 64)%N -> urun (Un 128 191 0) s = Some U0 -> utf8_text (String c s)).
  { intros A B D. destruct (urun_un _ _ _ _ _ D eq_refl) as (d & r & -> & Hd & Hr).
    apply (One ((x - 192) * 64 + (code d - 128))%N (String (chr (192 + (x - 192))) (String (chr (128 + (code d - 128))) "")) r).
    - apply u8_two; lia.
    - cbn [append]. rewrite <- (chr_of c) by lia. rewrite <- (chr_of d) by lia. reflexivity.
    - exact Hr.
    - cbn [String.length]. lia. }
  assert (Three : forall lo hi, (128 <= lo)%N -> (hi <= 191)%N -> (224 <= x < 240)%N ->
    (forall y z, (lo <= y <= hi)%N -> (128 <= z <= 191)%N -> (2048 <= ((x - 224) * 64 + (y - 128)) * 64 + (z - 128))%N /\ ~ (55296 <= ((x - 224) * 64 + (y - 128)) * 64 + (z - 128) <= 57343)%N) ->
    urun (Un lo hi 1) s = Some U0 -> utf8_text (String c s)).
  { intros lo hi Hlo Hhi Hx HB D. destruct (urun_un _ _ _ _ _ D eq_refl) as (d & r & -> & Hd & Hr).
    destruct (urun_un _ _ _ _ _ Hr eq_refl) as (e & r2 & -> & He & Hr2). destruct (HB (code d) (code e) Hd He) as [B1 B2].
    apply (One (((x - 224) * 64 + (code d - 128)) * 64 + (code e - 128))%N
      (String (chr (224 + (x - 224))) (String (chr (128 + (code d - 128))) (String (chr (128 + (code e - 128))) ""))) r2).
    - apply u8_three; [lia|lia|lia|exact B1|exact B2].
    - cbn [append]. rewrite <- (chr_of c) by lia. rewrite <- (chr_of d) by lia. rewrite <- (chr_of e) by lia. reflexivity.
    - exact Hr2.
    - cbn [String.length]. lia. }
  assert (Four : forall lo hi, (128 <= lo)%N -> (hi <= 191)%N -> (240 <= x < 245)%N ->
    (forall y z t, (lo <= y <= hi)%N -> (128 <= z <= 191)%N -> (128 <= t <= 191)%N ->
      (65536 <= (((x - 240) * 64 + (y - 128)) * 64 + (z - 128)) * 64 + (t - 128) < 1114112)%N) ->
    urun (Un lo hi 2) s = Some U0 -> utf8_text (String c s)).
  { intros lo hi Hlo Hhi Hx HB D. destruct (urun_un _ _ _ _ _ D eq_refl) as (d & r & -> & Hd & Hr).
    destruct (urun_un _ _ _ _ _ Hr eq_refl) as (e & r2 & -> & He & Hr2). destruct (urun_un _ _ _ _ _ Hr2 eq_refl) as (f & r3 & -> & Hf & Hr3).
    pose proof (HB (code d) (code e) (code f) Hd He Hf) as B1.
    apply (One ((((x - 240) * 64 + (code d - 128)) * 64 + (code e - 128)) * 64 + (code f - 128))%N
      (String (chr (240 + (x - 240))) (String (chr (128 + (code d - 128))) (String (chr (128 + (code e - 128))) (String (chr (128 + (code f - 128))) "")))) r3).
    - apply u8_four; [lia|lia|lia|lia|exact B1].
    - cbn [append]. rewrite <- (chr_of c) by lia. rewrite <- (chr_of d) by lia. rewrite <- (chr_of e) by lia. rewrite <- (chr_of f) by lia. reflexivity.
    - exact Hr3.
    - cbn [String.length]. lia. }
  destruct ((194 <=? x)%N && (x <=? 223)%N) eqn:E1; [apply andb_true_iff in E1; rewrite !N.leb_le in E1; apply Two; [lia|lia|exact H]|].
  destruct (N.eqb_spec x 224) as [E2|E2]; [apply (Three 160 191)%N; [lia|lia|lia|intros; lia|exact H]|].
  destruct ((225 <=? x)%N && (x <=? 236)%N) eqn:E3; [apply andb_true_iff in E3; rewrite !N.leb_le in E3; apply (Three 128 191)%N; [lia|lia|lia|intros; lia|exact H]|].
  destruct (N.eqb_spec x 237) as [E4|E4]; [apply (Three 128 159)%N; [lia|lia|lia|intros; lia|exact H]|].
  destruct ((238 <=? x)%N && (x <=? 239)%N) eqn:E5; [apply andb_true_iff in E5; rewrite !N.leb_le in E5; apply (Three 128 191)%N; [lia|lia|lia|intros; lia|exact H]|].
  destruct (N.eqb_spec x 240) as [E6|E6]; [apply (Four 144 191)%N; [lia|lia|lia|intros; lia|exact H]|].
  destruct ((241 <=? x)%N && (x <=? 243)%N) eqn:E7; [apply andb_true_iff in E7; rewrite !N.leb_le in E7; apply (Four 128 191)%N; [lia|lia|lia|intros; lia|exact H]|].
  destruct (N.eqb_spec x 244) as [E8|E8]; [apply (Four 128 143)%N; [lia|lia|lia|intros; lia|exact H]|discriminate].
Qed.

Lemma utf8_iff : forall s, utf8_valid s = true <-> utf8_text s.
Proof. intros s. split; [apply utf8_valid_text|apply utf8_text_valid]. Qed.

(** ** Numbers *)

Lemma between_code : forall lo hi c, between lo hi c <-> (code lo <= code c <= code hi)%N.
Proof. intros. reflexivity. Qed.

Lemma digit_iff : forall c, is_digit c = true <-> digit c.
Proof.
  intros c. unfold is_digit, digit. rewrite between_code, andb_true_iff, !N.leb_le. change (code "0") with 48%N. change (code "9") with 57%N. reflexivity.
Qed.

Lemma sall_digits : forall s, sall is_digit s = true <-> all_chars digit s.
Proof.
  induction s as [|c s IH]; [split; [intros _; apply all_chars_nil|reflexivity]|]. cbn [sall]. rewrite andb_true_iff, all_chars_cons, IH, digit_iff. reflexivity.
Qed.

Lemma nodigit_nil : nodigit "" = true.
Proof. reflexivity. Qed.

Lemma int_part_lex : forall i, lex_int i = Some (i, "") <-> int_part i.
Proof.
  intros i. split.
  - intros H. destruct i as [|c r]; [discriminate|]. cbn [lex_int] in H. destruct (N.eqb_spec (code c) 48) as [E|E].
    + injection H as H. subst r. replace c with "0"%char by (apply code_inj; symmetry; exact E). constructor.
    + destruct (is_digit c) eqn:D; [|discriminate]. pose proof (span_digits_digits (String c r)) as A.
      destruct (span_digits (String c r)) as [d y] eqn:Es. injection H as -> ->. cbn [fst sall] in A. apply andb_true_iff in A. destruct A as [_ A].
      apply ip_other; [|now apply sall_digits]. apply between_code. change (code "1") with 49%N. change (code "9") with 57%N. apply digit_iff in D.
      unfold digit in D. rewrite between_code in D. change (code "0") with 48%N in D. change (code "9") with 57%N in D. lia.
  - intros H. destruct H as [|c s Hc Hs]; [reflexivity|]. rewrite between_code in Hc. change (code "1") with 49%N in Hc. change (code "9") with 57%N in Hc.
    assert (D : is_digit c = true). { unfold is_digit. apply andb_true_iff. rewrite !N.leb_le. lia. }
    cbn [lex_int]. destruct (N.eqb_spec (code c) 48); [lia|]. rewrite D. rewrite <- (sapp_nil_r (String c s)) at 1. rewrite span_digits_exact; [reflexivity| |reflexivity].
    cbn [sall]. rewrite D. now apply sall_digits.
Qed.

Lemma frac_part_lex : forall f, lex_frac f = Some (f, "") <-> frac_part f.
Proof.
  intros f. split.
  - intros H. destruct f as [|c r]; [constructor|]. cbn [lex_frac] in H. destruct (N.eqb_spec (code c) 46) as [E|E]; [|discriminate].
    pose proof (span_digits_digits r) as A. destruct (span_digits r) as [d y] eqn:Es. cbn [fst] in A. destruct d as [|d0 d]; [discriminate|].
    injection H as H1 H2. subst r. replace c with "."%char by (apply code_inj; symmetry; exact E).
    change (String "." (String d0 d)) with ("." ++ String d0 d). constructor. split; [discriminate|now apply sall_digits].
  - intros H. destruct H as [|d [Hn Hd]]; [reflexivity|]. cbn [append lex_frac]. change (code "." =? 46)%N with true. cbn match.
    rewrite <- (sapp_nil_r d) at 1. rewrite span_digits_exact; [|now apply sall_digits|reflexivity]. destruct d; [congruence|reflexivity].
Qed.

Lemma exp_part_lex : forall e, lex_exp e = Some (e, "") <-> exp_part e.
Proof.
  intros e. split.
  - intros H. destruct e as [|c r]; [constructor|]. cbn [lex_exp] in H. destruct ((code c =? 101) || (code c =? 69))%N eqn:E; [|discriminate].
    assert (Ec : String c "" = "e" \/ String c "" = "E").
    { apply orb_true_iff in E. rewrite !N.eqb_eq in E. destruct E as [E|E]; [left|right]; f_equal; now apply code_inj. }
    assert (HS : exists sg r1, (match r with String p r' => if ((code p =? 43) || (code p =? 45))%N then (String p "", r') else ("", r) | "" => ("", "") end) = (sg, r1) /\
      (sg = "" \/ sg = "+" \/ sg = "-")).
    { destruct r as [|p r']; [eexists _, _; split; [reflexivity|now left]|]. destruct ((code p =? 43) || (code p =? 45))%N eqn:E2; [|eexists _, _; split; [reflexivity|now left]].
      eexists _, _. split; [reflexivity|]. right. apply orb_true_iff in E2. rewrite !N.eqb_eq in E2. destruct E2 as [E2|E2]; [left|right]; f_equal; now apply code_inj. }
    destruct HS as (sg & r1 & HS & Hsg). rewrite HS in H. pose proof (span_digits_digits r1) as A. destruct (span_digits r1) as [d y] eqn:Es. cbn [fst] in A.
    destruct d as [|d0 d]; [discriminate|]. injection H as H1 H2. rewrite <- H1. change (String c (sg ++ String d0 d)) with (String c "" ++ sg ++ String d0 d).
    constructor; [exact Ec|exact Hsg|]. split; [discriminate|now apply sall_digits].
  - intros H. destruct H as [|e sg d He Hs [Hn Hd]]; [reflexivity|]. apply sall_digits in Hd.
    assert (X : forall c, (code c =? 101)%N || (code c =? 69)%N = true -> lex_exp (String c (sg ++ d)) = Some (String c (sg ++ d), "")).
    { intros c Hc. cbn [lex_exp]. rewrite Hc.
      assert (Y : match sg ++ d with String p r' => if ((code p =? 43) || (code p =? 45))%N then (String p "", r') else ("", sg ++ d) | "" => ("", "") end = (sg, d)).
      { destruct Hs as [->|[->| ->]]; [|reflexivity|reflexivity]. cbn [append]. destruct d as [|p d]; [reflexivity|]. cbn [sall] in Hd. apply andb_true_iff in Hd. destruct Hd as [Hp _].
        unfold is_digit in Hp. apply andb_true_iff in Hp. rewrite !N.leb_le in Hp.
        destruct (N.eqb_spec (code p) 43); [lia|]. destruct (N.eqb_spec (code p) 45); [lia|reflexivity]. }
      rewrite Y. rewrite <- (sapp_nil_r d) at 1. rewrite span_digits_exact; [|exact Hd|reflexivity]. destruct d; [congruence|reflexivity]. }
    destruct He as [->| ->]; cbn [append]; apply X; reflexivity.
Qed.

Lemma number_lex : forall t, number_token t -> numtok t.
Proof.
  intros t H. destruct H as [sg i f e Hs Hi Hf He]. apply int_part_lex in Hi. apply frac_part_lex in Hf. apply exp_part_lex in He.
  assert (Hrest : lex_int (i ++ (f ++ e)) = Some (i, f ++ e)) by (apply lex_int_frac; [exact Hi|eapply lex_frac_numend; eassumption]).
  assert (Hfe : lex_frac (f ++ e) = Some (f, e)) by (eapply lex_frac_exp; eassumption).
  unfold numtok, lex_num. destruct Hs as [->| ->]; cbn [append].
  - destruct i as [|c r]; [discriminate|]. pose proof (lex_int_split _ _ _ Hi) as [_ (c' & r' & Ec & Hd & _)]. injection Ec as <- <-.
    cbn [append] in *. unfold is_digit in Hd. apply andb_true_iff in Hd. rewrite !N.leb_le in Hd. destruct (N.eqb_spec (code c) 45); [lia|].
    rewrite Hrest, Hfe, He. reflexivity.
  - change (code "-" =? 45)%N with true. cbn match. rewrite Hrest, Hfe, He. reflexivity.
Qed.

Lemma lex_number : forall s t r, lex_num s = Some (t, r) -> number_token t.
Proof.
  intros s t r H. unfold lex_num in H.
  destruct (match s with String c r => if (code c =? 45)%N then (String c "", r) else ("", s) | "" => ("", "") end) as [sg s1] eqn:E0.
  destruct (lex_int s1) as [[i s2]|] eqn:E1; [|discriminate]. destruct (lex_frac s2) as [[f s3]|] eqn:E2; [|discriminate].
  destruct (lex_exp s3) as [[e s4]|] eqn:E3; [|discriminate]. injection H as <- <-. constructor.
  - destruct s as [|c s]; [injection E0 as <- <-; now left|]. destruct (N.eqb_spec (code c) 45) as [E|E]; injection E0 as <- <-; [right|now left].
    f_equal. now apply code_inj.
  - apply int_part_lex. eapply lex_int_self; eassumption.
  - apply frac_part_lex. apply (lex_frac_split _ _ _ E2).
  - apply exp_part_lex. apply (lex_exp_split _ _ _ E3).
Qed.

Lemma number_iff : forall t, numtok t <-> number_token t.
Proof. intros t. split; [apply lex_number|apply number_lex]. Qed.

(** ** Strings *)

Lemma hex_iff : forall c n, hexval c = Some n <-> hex_digit c n.
Proof.
  intros c n. unfold hexval. split.
  - destruct ((48 <=? code c) && (code c <=? 57))%N eqn:E1; [intros H; injection H as <-; apply hx_digit; apply andb_true_iff in E1; rewrite !N.leb_le in E1; exact E1|].
    destruct ((97 <=? code c) && (code c <=? 102))%N eqn:E2; [intros H; injection H as <-; apply hx_lower; apply andb_true_iff in E2; rewrite !N.leb_le in E2; exact E2|].
    destruct ((65 <=? code c) && (code c <=? 70))%N eqn:E3; [intros H; injection H as <-; apply hx_upper; apply andb_true_iff in E3; rewrite !N.leb_le in E3; exact E3|discriminate].
  - intros H. destruct H as [c H|c H|c H]; rewrite between_code in H;
      [change (code "0") with 48%N in H; change (code "9") with 57%N in H|change (code "a") with 97%N in H; change (code "f") with 102%N in H|change (code "A") with 65%N in H; change (code "F") with 70%N in H].
    + replace ((48 <=? code c) && (code c <=? 57))%N with true; [reflexivity|]. symmetry. apply andb_true_iff. rewrite !N.leb_le. exact H.
    + replace ((48 <=? code c) && (code c <=? 57))%N with false; [|symmetry; apply andb_false_iff; right; apply N.leb_gt; lia].
      replace ((97 <=? code c) && (code c <=? 102))%N with true; [reflexivity|]. symmetry. apply andb_true_iff. rewrite !N.leb_le. exact H.
    + replace ((48 <=? code c) && (code c <=? 57))%N with false; [|symmetry; apply andb_false_iff; right; apply N.leb_gt; lia].
      replace ((97 <=? code c) && (code c <=? 102))%N with false; [|symmetry; apply andb_false_iff; left; apply N.leb_gt; lia].
      replace ((65 <=? code c) && (code c <=? 70))%N with true; [reflexivity|]. symmetry. apply andb_true_iff. rewrite !N.leb_le. exact H.
Qed.

Lemma hex4_quad : forall a b c d n, hex4 a b c d = Some n -> quad (String a (String b (String c (String d "")))) n.
Proof.
  intros a b c d n H. unfold hex4 in H. destruct (hexval a) as [x|] eqn:E1; [|discriminate]. destruct (hexval b) as [y|] eqn:E2; [|discriminate].
  destruct (hexval c) as [z|] eqn:E3; [|discriminate]. destruct (hexval d) as [t|] eqn:E4; [|discriminate]. injection H as <-.
  replace (((x * 16 + y) * 16 + z) * 16 + t)%N with (x * 4096 + y * 256 + z * 16 + t)%N by lia. apply hex_iff in E1, E2, E3, E4. now constructor.
Qed.

Lemma quad_hex4 : forall q n, quad q n -> exists a b c d, q = String a (String b (String c (String d ""))) /\ hex4 a b c d = Some n /\ (n < 65536)%N.
Proof.
  intros q n H. destruct H as [a b c d x y z t H1 H2 H3 H4]. exists a, b, c, d. split; [reflexivity|]. apply hex_iff in H1, H2, H3, H4.
  assert (E : hex4 a b c d = Some (x * 4096 + y * 256 + z * 16 + t)%N).
  { unfold hex4. rewrite H1, H2, H3, H4. f_equal. lia. }
  split; [exact E|]. exact (proj1 (hex4_bound _ _ _ _ _ E)).
Qed.

Lemma short_iff : forall x c, simple_escape x = Some c <-> In (x, c) short_escapes.
Proof.
  intros x c. split.
  - unfold simple_escape, short_escapes. cbn [In].
    destruct (N.eqb_spec (code x) 34) as [E|_]; [intros H; injection H as <-; left; f_equal; symmetry; now apply chr_of|].
    destruct (N.eqb_spec (code x) 92) as [E|_]; [intros H; injection H as <-; right; left; f_equal; now apply code_inj|].
    destruct (N.eqb_spec (code x) 47) as [E|_]; [intros H; injection H as <-; do 2 right; left; f_equal; now apply code_inj|].
    destruct (N.eqb_spec (code x) 98) as [E|_]; [intros H; injection H as <-; do 3 right; left; f_equal; now apply code_inj|].
    destruct (N.eqb_spec (code x) 102) as [E|_]; [intros H; injection H as <-; do 4 right; left; f_equal; now apply code_inj|].
    destruct (N.eqb_spec (code x) 110) as [E|_]; [intros H; injection H as <-; do 5 right; left; f_equal; now apply code_inj|].
    destruct (N.eqb_spec (code x) 114) as [E|_]; [intros H; injection H as <-; do 6 right; left; f_equal; now apply code_inj|].
    destruct (N.eqb_spec (code x) 116) as [E|_]; [intros H; injection H as <-; do 7 right; left; f_equal; now apply code_inj|discriminate].
  - unfold short_escapes. cbn [In]. intros H.
    repeat (destruct H as [H|H]; [injection H as <- <-; reflexivity|]). destruct H.
Qed.

Lemma short_not_u : forall x c, In (x, c) short_escapes -> (code x =? 117)%N = false.
Proof. intros x c H. unfold short_escapes in H. cbn [In] in H. repeat (destruct H as [H|H]; [injection H as <- <-; reflexivity|]). destruct H. Qed.

Lemma pstr_sound : forall s e t r, pstr s = Some (e, t, r) -> exists u, s = u ++ String dquote r /\ str_text u t e.
Proof.
  apply (string_len_ind (fun s => forall e t r, pstr s = Some (e, t, r) -> exists u, s = u ++ String dquote r /\ str_text u t e)).
  intros [|c s] IH e t r H; [discriminate|]. cbn [pstr] in H.
  destruct (N.eqb_spec (code c) 34) as [E1|N1].
  { injection H as <- <- <-. exists "". split; [|constructor]. cbn [append]. f_equal. now apply chr_of. }
  destruct (N.eqb_spec (code c) 92) as [E2|N2].
  - assert (c = "\"%char) by (now apply code_inj). subst c.
    destruct s as [|e1 r1]; [discriminate|]. destruct (N.eqb_spec (code e1) 117) as [Eu|Nu].
    + assert (e1 = "u"%char) by (now apply code_inj). subst e1.
      destruct r1 as [|h1 [|h2 [|h3 [|h4 r2]]]]; try discriminate.
      destruct (hex4 h1 h2 h3 h4) as [n|] eqn:EH; [|discriminate]. pose proof (proj1 (hex4_bound _ _ _ _ _ EH)) as HB. apply hex4_quad in EH.
      destruct (is_low_surr n) eqn:EL; [discriminate|]. destruct (is_high_surr n) eqn:EHi.
      * destruct r2 as [|b [|u [|k1 [|k2 [|k3 [|k4 r3]]]]]]; try discriminate.
        destruct (N.eqb_spec (code b) 92) as [Eb|]; [|discriminate]. destruct (N.eqb_spec (code u) 117) as [Eu2|]; [|discriminate]. cbn [andb] in H.
        assert (b = "\"%char) by (now apply code_inj). assert (u = "u"%char) by (now apply code_inj). subst b u.
        destruct (hex4 k1 k2 k3 k4) as [n2|] eqn:EH2; [|discriminate]. apply hex4_quad in EH2. destruct (is_low_surr n2) eqn:EL2; [|discriminate].
        apply push_some in H. destruct H as (e' & t' & H & -> & ->). apply IH in H; [|cbn [String.length]; lia]. destruct H as (u & -> & Hu).
        exists ("\u" ++ String h1 (String h2 (String h3 (String h4 ""))) ++ "\u" ++ String k1 (String k2 (String k3 (String k4 ""))) ++ u).
        split; [reflexivity|]. unfold is_high_surr in EHi. unfold is_low_surr in EL2. apply andb_true_iff in EHi, EL2. rewrite !N.leb_le in EHi, EL2.
        eapply st_pair; [exact EH|exact EH2|exact EHi|exact EL2| |exact Hu].
        unfold surr_pair. replace (65536 + (n - 55296) * 1024 + (n2 - 56320))%N with ((n - 55296) * 1024 + (n2 - 56320) + 65536)%N by lia.
        apply encode_u8; lia.
      * apply push_some in H. destruct H as (e' & t' & H & -> & ->). apply IH in H; [|cbn [String.length]; lia]. destruct H as (u & -> & Hu).
        exists ("\u" ++ String h1 (String h2 (String h3 (String h4 ""))) ++ u). split; [reflexivity|].
        eapply st_unicode; [exact EH| |exact Hu]. apply encode_u8; [lia|].
        unfold is_high_surr in EHi. unfold is_low_surr in EL. apply andb_false_iff in EHi, EL. rewrite !N.leb_gt in EHi, EL. lia.
    + destruct (simple_escape e1) as [c'|] eqn:ES; [|discriminate]. apply short_iff in ES.
      apply push_some in H. destruct H as (e' & t' & H & -> & ->). apply IH in H; [|cbn [String.length]; lia]. destruct H as (u & -> & Hu).
      exists ("\" ++ String e1 u). split; [reflexivity|]. cbn [append orb]. eapply st_short; [exact ES|exact Hu].
  - destruct (N.ltb_spec (code c) 32) as [L|L]; [discriminate|].
    apply push_some in H. destruct H as (e' & t' & H & -> & ->). apply IH in H; [|cbn [String.length]; lia]. destruct H as (u & -> & Hu).
    exists (String c u). split; [reflexivity|]. cbn [append orb]. apply st_plain; [|intros ->; now apply N2|exact L|exact Hu].
    intros ->. apply N1. reflexivity.
Qed.

Lemma pstr_complete : forall u t e, str_text u t e -> forall r, pstr (u ++ String dquote r) = Some (e, t, r).
Proof.
  intros u t e H. induction H as [|c t s e N1 N2 L H IH|x c t s e HI H IH|q n u t s e HQ HU H IH|q1 q2 h l u t s e HQ1 HQ2 Hh Hl HU H IH]; intros r.
  - reflexivity.
  - cbn [append pstr]. destruct (N.eqb_spec (code c) 34) as [E|_]; [exfalso; apply N1; now apply chr_of|].
    destruct (N.eqb_spec (code c) 92) as [E|_]; [exfalso; apply N2; now apply code_inj|]. destruct (N.ltb_spec (code c) 32); [lia|]. rewrite IH. reflexivity.
  - cbn [append pstr]. change (code "\" =? 34)%N with false. change (code "\" =? 92)%N with true. cbn match. rewrite (short_not_u _ _ HI).
    apply short_iff in HI. rewrite HI, IH. reflexivity.
  - apply quad_hex4 in HQ. destruct HQ as (h1 & h2 & h3 & h4 & -> & EH & HB). apply u8_encode in HU. destruct HU as [EU [_ NS]].
    cbn [append pstr]. change (code "\" =? 34)%N with false. change (code "\" =? 92)%N with true. change (code "u" =? 117)%N with true. cbn match. rewrite EH.
    replace (is_low_surr n) with false; [|symmetry; apply andb_false_iff; rewrite !N.leb_gt; lia].
    replace (is_high_surr n) with false; [|symmetry; apply andb_false_iff; rewrite !N.leb_gt; lia].
    rewrite IH, EU. reflexivity.
  - apply quad_hex4 in HQ1, HQ2. destruct HQ1 as (h1 & h2 & h3 & h4 & -> & EH & HB). destruct HQ2 as (k1 & k2 & k3 & k4 & -> & EK & HB2).
    apply u8_encode in HU. destruct HU as [EU _].
    cbn [append pstr]. change (code "\" =? 34)%N with false. change (code "\" =? 92)%N with true. change (code "u" =? 117)%N with true. cbn match. rewrite EH.
    replace (is_low_surr h) with false; [|symmetry; apply andb_false_iff; rewrite !N.leb_gt; lia].
    replace (is_high_surr h) with true; [|symmetry; apply andb_true_iff; rewrite !N.leb_le; lia]. cbn [andb]. rewrite EK.
    replace (is_low_surr l) with true; [|symmetry; apply andb_true_iff; rewrite !N.leb_le; lia].
    unfold surr_pair. replace ((h - 55296) * 1024 + (l - 56320) + 65536)%N with (65536 + (h - 55296) * 1024 + (l - 56320))%N by lia.
    rewrite EU, IH. reflexivity.
Qed.

(** ** Values *)

Lemma ws_iff : forall c, is_ws c = true <-> (c = chr 32 \/ c = chr 9 \/ c = chr 10 \/ c = chr 13).
Proof.
  intros c. unfold is_ws. rewrite !orb_true_iff, !N.eqb_eq. split.
  - intros [[[H|H]|H]|H]; apply chr_of in H; tauto.
  - intros [->|[->|[->| ->]]]; vm_compute; tauto.
Qed.
Lemma blank_nil : blank "".
Proof. apply all_chars_nil. Qed.
Lemma blank_cons : forall c w, blank (String c w) <-> is_ws c = true /\ blank w.
Proof. intros c w. unfold blank. now rewrite all_chars_cons, ws_iff. Qed.
Lemma blank_app : forall a b, blank a -> blank b -> blank (a ++ b).
Proof. intros a b Ha Hb. unfold blank. now apply all_chars_app. Qed.

Lemma skip_split : forall s, exists w, blank w /\ s = w ++ skip_ws s.
Proof.
  induction s as [|c s [w [Hw E]]]; [exists ""; split; [apply blank_nil|reflexivity]|]. cbn [skip_ws]. destruct (is_ws c) eqn:Ec.
  - exists (String c w). split; [now apply blank_cons|]. cbn [append]. now rewrite <- E.
  - exists "". split; [apply blank_nil|reflexivity].
Qed.
Lemma skip_blank : forall w s, blank w -> skip_ws (w ++ s) = skip_ws s.
Proof. induction w as [|c w IH]; intros s H; [reflexivity|]. apply blank_cons in H. destruct H as [Hc Hw]. cbn [append skip_ws]. rewrite Hc. now apply IH. Qed.
Lemma skip_idem : forall s, skip_ws (skip_ws s) = skip_ws s.
Proof. induction s as [|c s IH]; [reflexivity|]. cbn [skip_ws]. destruct (is_ws c) eqn:E; [exact IH|]. cbn [skip_ws]. now rewrite E. Qed.
Lemma skip_all_blank : forall s, skip_ws s = "" -> blank s.
Proof. intros s H. destruct (skip_split s) as [w [Hw E]]. rewrite H, sapp_nil_r in E. now subst. Qed.

Lemma strip_split : forall p s r, strip p s = Some r -> s = p ++ r.
Proof.
  induction p as [|a p IH]; intros s r H; [now injection H as <-|]. destruct s as [|b s]; [discriminate|]. cbn [strip] in H.
  destruct (Ascii.eqb_spec a b) as [->|]; [|discriminate]. cbn [append]. f_equal. now apply IH.
Qed.
Lemma strip_self : forall p r, strip p (p ++ r) = Some r.
Proof. induction p as [|a p IH]; intros r; [reflexivity|]. cbn [append strip]. rewrite Ascii.eqb_refl. apply IH. Qed.

Lemma elements_blank : forall w l t, blank w -> elements l t -> elements l (w ++ t).
Proof.
  intros w l t Hw H. destruct H as [j w1 t w2 H1 H2 H3|j w1 t w2 l u H1 H2 H3 H4]; rewrite <- sapp_assoc; constructor; try assumption; now apply blank_app.
Qed.
Lemma members_blank : forall w l t, blank w -> members l t -> members l (w ++ t).
Proof.
  intros w l t Hw H. destruct H as [k kt e j w1 w2 w3 t w4 H1 H2 H3 H4 H5 H6|k kt e j w1 w2 w3 t w4 l u H1 H2 H3 H4 H5 H6 H7]; rewrite <- sapp_assoc;
    [eapply me_one|eapply me_more]; try eassumption; now apply blank_app.
Qed.

Ltac app_norm := repeat progress (cbn [append]; rewrite ?sapp_assoc).
Ltac code_is H c := match type of H with (code ?x =? _)%N = true => assert (x = c) by (apply code_inj; apply N.eqb_eq in H; exact H); subst x end.

Lemma parse_sound_aux : forall n,
  (forall s j r, pval n s = Some (j, r) -> exists w u, blank w /\ denotes j u /\ s = w ++ u ++ r) /\
  (forall s l r, pelems n s = Some (l, r) -> exists t, elements l t /\ s = t ++ String "]" r) /\
  (forall s l r, pmembers n s = Some (l, r) -> exists t, members l t /\ s = t ++ String "}" r).
Proof.
  induction n as [|n [IHv [IHe IHm]]]; [split; [|split]; intros; discriminate|]. split; [|split].
  - intros s j r H. cbn [pval] in H. destruct (skip_split s) as [w [Hw Es]]. exists w. destruct (skip_ws s) as [|c s'] eqn:E0; [discriminate|].
    destruct (code c =? 110)%N eqn:E1.
    { code_is E1 "n"%char. destruct (strip "ull" s') as [r'|] eqn:E; [|discriminate]. injection H as <- <-. apply strip_split in E. subst s'.
      exists "null". split; [exact Hw|]. split; [constructor|exact Es]. }
    destruct (code c =? 116)%N eqn:E2.
    { code_is E2 "t"%char. destruct (strip "rue" s') as [r'|] eqn:E; [|discriminate]. injection H as <- <-. apply strip_split in E. subst s'.
      exists "true". split; [exact Hw|]. split; [constructor|exact Es]. }
    destruct (code c =? 102)%N eqn:E3.
    { code_is E3 "f"%char. destruct (strip "alse" s') as [r'|] eqn:E; [|discriminate]. injection H as <- <-. apply strip_split in E. subst s'.
      exists "false". split; [exact Hw|]. split; [constructor|exact Es]. }
    destruct (code c =? 34)%N eqn:E4.
    { code_is E4 (chr 34). destruct (pstr s') as [[[e t] r']|] eqn:E; [|discriminate]. injection H as <- <-. apply pstr_sound in E. destruct E as (u & -> & Hu).
      exists (quoted u). split; [exact Hw|]. split; [now constructor|]. rewrite Es. unfold quoted. cbn [append]. now rewrite sapp_assoc. }
    destruct (code c =? 91)%N eqn:E5.
    { code_is E5 "["%char. destruct (skip_split s') as [w2 [Hw2 Es2]]. destruct (skip_ws s') as [|d r'] eqn:E6; [discriminate|]. destruct (code d =? 93)%N eqn:E7.
      - code_is E7 "]"%char. injection H as <- <-. exists ("[" ++ w2 ++ "]"). split; [exact Hw|]. split; [now constructor|]. rewrite Es, Es2. cbn [append]. now rewrite sapp_assoc.
      - destruct (pelems n (String d r')) as [[l r2]|] eqn:E; [|discriminate]. injection H as <- <-. apply IHe in E. destruct E as (t & Ht & Et).
        exists ("[" ++ (w2 ++ t) ++ "]"). split; [exact Hw|]. split; [apply dn_arr; now apply elements_blank|]. rewrite Es, Es2, Et. cbn [append]. now rewrite !sapp_assoc. }
    destruct (code c =? 123)%N eqn:E6.
    { code_is E6 "{"%char. destruct (skip_split s') as [w2 [Hw2 Es2]]. destruct (skip_ws s') as [|d r'] eqn:E7; [discriminate|]. destruct (code d =? 125)%N eqn:E8.
      - code_is E8 "}"%char. injection H as <- <-. exists ("{" ++ w2 ++ "}"). split; [exact Hw|]. split; [now constructor|]. rewrite Es, Es2. cbn [append]. now rewrite sapp_assoc.
      - destruct (pmembers n (String d r')) as [[l r2]|] eqn:E; [|discriminate]. injection H as <- <-. apply IHm in E. destruct E as (t & Ht & Et).
        exists ("{" ++ (w2 ++ t) ++ "}"). split; [exact Hw|]. split; [apply dn_obj; now apply members_blank|]. rewrite Es, Es2, Et. cbn [append]. now rewrite !sapp_assoc. }
    destruct (lex_num (String c s')) as [[t r']|] eqn:E; [|discriminate]. injection H as <- <-. exists t. split; [exact Hw|].
    split; [constructor; eapply lex_number; eassumption|]. apply lex_num_split in E. destruct E as [E _]. now rewrite Es, E.
  - intros s l r H. cbn [pelems] in H. destruct (pval n s) as [[j r1]|] eqn:Ev; [|discriminate]. apply IHv in Ev. destruct Ev as (w & u & Hw & Hu & ->).
    destruct (skip_split r1) as [w2 [Hw2 Er]]. destruct (skip_ws r1) as [|d r'] eqn:Es; [discriminate|]. destruct (code d =? 93)%N eqn:E1.
    + code_is E1 "]"%char. injection H as <- <-. exists (w ++ u ++ w2). split; [now constructor|]. rewrite Er. now rewrite !sapp_assoc.
    + destruct (code d =? 44)%N eqn:E2; [|discriminate]. code_is E2 ","%char. destruct (pelems n r') as [[l' r2]|] eqn:E; [|discriminate]. injection H as <- <-.
      apply IHe in E. destruct E as (t & Ht & ->). exists (w ++ u ++ w2 ++ "," ++ t). split; [now constructor|]. rewrite Er. app_norm. reflexivity.
  - intros s l r H. cbn [pmembers] in H. destruct (skip_split s) as [w1 [Hw1 Es]]. destruct (skip_ws s) as [|c s'] eqn:E0; [discriminate|].
    destruct (code c =? 34)%N eqn:E1; [|discriminate]. code_is E1 (chr 34).
    destruct (pstr s') as [[[e k] r1]|] eqn:Ep; [|discriminate]. apply pstr_sound in Ep. destruct Ep as (kt & -> & Hk).
    destruct (skip_split r1) as [w2 [Hw2 Er1]]. destruct (skip_ws r1) as [|d r2] eqn:E2; [discriminate|]. destruct (code d =? 58)%N eqn:E3; [|discriminate]. code_is E3 ":"%char.
    destruct (pval n r2) as [[j r3]|] eqn:Ev; [|discriminate]. apply IHv in Ev. destruct Ev as (w3 & u & Hw3 & Hu & ->).
    destruct (skip_split r3) as [w4 [Hw4 Er3]]. destruct (skip_ws r3) as [|d2 r'] eqn:E4; [discriminate|]. destruct (code d2 =? 125)%N eqn:E5.
    + code_is E5 "}"%char. injection H as <- <-. exists (w1 ++ quoted kt ++ w2 ++ ":" ++ w3 ++ u ++ w4). split; [now apply me_one with (e := e)|].
      rewrite Es, Er1, Er3. unfold quoted, dquote. app_norm. reflexivity.
    + destruct (code d2 =? 44)%N eqn:E6; [|discriminate]. code_is E6 ","%char. destruct (pmembers n r') as [[l' r5]|] eqn:E; [|discriminate]. injection H as <- <-.
      apply IHm in E. destruct E as (t & Ht & ->). exists (w1 ++ quoted kt ++ w2 ++ ":" ++ w3 ++ u ++ w4 ++ "," ++ t). split; [now apply me_more with (e := e)|].
      rewrite Es, Er1, Er3. unfold quoted, dquote. app_norm. reflexivity.
Qed.

Lemma parse_document : forall s j, parse s = Some j -> document s j.
Proof.
  intros s j H. unfold parse in H. destruct (pval _ s) as [[j' r]|] eqn:E; [|discriminate].
  destruct (skip_ws r) as [|? ?] eqn:Er; [|discriminate]. injection H as <-.
  apply (proj1 (parse_sound_aux _)) in E. destruct E as (w & u & Hw & Hu & ->). exists w, u, r. split; [exact Hw|]. split; [exact Hu|]. split; [now apply skip_all_blank|reflexivity].
Qed.

Scheme denotes_min := Minimality for denotes Sort Prop
with elements_min := Minimality for elements Sort Prop
with members_min := Minimality for members Sort Prop.
Combined Scheme denotes_all from denotes_min, elements_min, members_min.

Lemma numend_blank : forall w r, blank w -> numend r = true -> numend (w ++ r) = true.
Proof.
  intros [|c w] r Hw Hr; [exact Hr|]. apply blank_cons in Hw. destruct Hw as [Hc _]. apply ws_iff in Hc. cbn [append].
  destruct Hc as [->|[->|[->| ->]]]; reflexivity.
Qed.

Lemma pval_skip : forall n w s, blank w -> pval n (w ++ s) = pval n (skip_ws s).
Proof. intros [|n] w s Hw; [reflexivity|]. cbn [pval]. now rewrite skip_blank, skip_idem. Qed.
Lemma pelems_skip : forall n s, pelems n (skip_ws s) = pelems n s.
Proof.
  intros [|n] s; [reflexivity|]. cbn [pelems]. pose proof (pval_skip n "" s blank_nil) as E. cbn [append] in E. now rewrite E.
Qed.
Lemma pmembers_skip : forall n s, pmembers n (skip_ws s) = pmembers n s.
Proof. intros [|n] s; [reflexivity|]. cbn [pmembers]. now rewrite skip_idem. Qed.

Lemma pval_bracket : forall n r, pval n (String "]" r) = None.
Proof. intros [|n] r; reflexivity. Qed.

Lemma parse_complete_aux :
  (forall j u, denotes j u -> exists N, forall n w r, N <= n -> blank w -> numend r = true -> pval n (w ++ u ++ r) = Some (j, r)) /\
  (forall l t, elements l t -> exists N, forall n r, N <= n -> pelems n (t ++ String "]" r) = Some (l, r)) /\
  (forall l t, members l t -> exists N, forall n r, N <= n -> pmembers n (t ++ String "}" r) = Some (l, r)).
Proof.
  apply denotes_all.
  - exists 1. intros [|n] w r Hn Hw _; [lia|]. rewrite pval_skip by exact Hw. reflexivity.
  - exists 1. intros [|n] w r Hn Hw _; [lia|]. rewrite pval_skip by exact Hw. reflexivity.
  - exists 1. intros [|n] w r Hn Hw _; [lia|]. rewrite pval_skip by exact Hw. reflexivity.
  - intros t Ht. exists 1. intros [|n] w r Hn Hw Hr; [lia|]. apply number_lex in Ht. pose proof (numtok_head t Ht) as (c & t' & E & Hc).
    assert (HL : lex_num (t ++ r) = Some (t, r)) by (apply lex_num_app with (y := ""); assumption).
    subst t. rewrite pval_skip by exact Hw. cbn [append] in *.
    assert (Hcode : (code c = 45 \/ 48 <= code c <= 57)%N).
    { apply orb_true_iff in Hc. destruct Hc as [Hc|Hc]; [left; now apply N.eqb_eq|right]. unfold is_digit in Hc. apply andb_true_iff in Hc. now rewrite !N.leb_le in Hc. }
    assert (Hws : is_ws c = false).
    { unfold is_ws. destruct (N.eqb_spec (code c) 32); [lia|]. destruct (N.eqb_spec (code c) 10); [lia|]. destruct (N.eqb_spec (code c) 9); [lia|]. destruct (N.eqb_spec (code c) 13); [lia|reflexivity]. }
    cbn [pval]. rewrite skip_idem. rewrite skip_ws_id by exact Hws.
    destruct (N.eqb_spec (code c) 110); [lia|]. destruct (N.eqb_spec (code c) 116); [lia|]. destruct (N.eqb_spec (code c) 102); [lia|].
    destruct (N.eqb_spec (code c) 34); [lia|]. destruct (N.eqb_spec (code c) 91); [lia|]. destruct (N.eqb_spec (code c) 123); [lia|]. rewrite HL. reflexivity.
  - intros t s e Ht. exists 1. intros [|n] w r Hn Hw _; [lia|]. rewrite pval_skip by exact Hw. unfold quoted. cbn [append]. rewrite sapp_assoc. cbn [append].
    pose proof (pstr_complete _ _ _ Ht r) as E. change (chr 34) with dquote. cbn [pval]. rewrite skip_idem. rewrite skip_ws_id by reflexivity.
    change (code dquote) with 34%N. cbn [N.eqb Pos.eqb]. rewrite E. reflexivity.
  - intros w2 Hw2. exists 1. intros [|n] w r Hn Hw _; [lia|]. rewrite pval_skip by exact Hw. cbn [append]. rewrite sapp_assoc. cbn [append].
    cbn [pval]. rewrite skip_idem. rewrite skip_ws_id by reflexivity. change (code "[") with 91%N. cbn [N.eqb Pos.eqb]. rewrite skip_blank by exact Hw2. reflexivity.
  - intros l t _ [M HM]. exists (S (S M)). intros [|n] w r Hn Hw _; [lia|]. rewrite pval_skip by exact Hw. cbn [append]. rewrite sapp_assoc. cbn [append].
    cbn [pval]. rewrite skip_idem. rewrite skip_ws_id by reflexivity. change (code "[") with 91%N. cbn [N.eqb Pos.eqb].
    specialize (HM n r ltac:(lia)). rewrite <- pelems_skip in HM. destruct n as [|n]; [lia|].
    destruct (skip_ws (t ++ String "]" r)) as [|d y] eqn:Es; [cbn [pelems] in HM; destruct n; discriminate|].
    destruct (code d =? 93)%N eqn:E; [|rewrite HM; reflexivity]. code_is E "]"%char. cbn [pelems] in HM. rewrite pval_bracket in HM. discriminate.
  - intros w2 Hw2. exists 1. intros [|n] w r Hn Hw _; [lia|]. rewrite pval_skip by exact Hw. cbn [append]. rewrite sapp_assoc. cbn [append].
    cbn [pval]. rewrite skip_idem. rewrite skip_ws_id by reflexivity. change (code "{") with 123%N. cbn [N.eqb Pos.eqb]. rewrite skip_blank by exact Hw2. reflexivity.
  - intros l t _ [M HM]. exists (S (S M)). intros [|n] w r Hn Hw _; [lia|]. rewrite pval_skip by exact Hw. cbn [append]. rewrite sapp_assoc. cbn [append].
    cbn [pval]. rewrite skip_idem. rewrite skip_ws_id by reflexivity. change (code "{") with 123%N. cbn [N.eqb Pos.eqb].
    specialize (HM n r ltac:(lia)). rewrite <- pmembers_skip in HM. destruct n as [|n]; [lia|].
    destruct (skip_ws (t ++ String "}" r)) as [|d y] eqn:Es; [discriminate|].
    destruct (code d =? 125)%N eqn:E; [|rewrite HM; reflexivity]. code_is E "}"%char. cbn [pmembers] in HM. rewrite skip_ws_id in HM by reflexivity. discriminate.
  - intros j w1 t w2 Hw1 _ [M HM] Hw2. exists (S M). intros [|n] r Hn; [lia|]. cbn [pelems]. rewrite !sapp_assoc.
    rewrite HM; [|lia|exact Hw1|now apply numend_blank]. rewrite skip_blank by exact Hw2. reflexivity.
  - intros j w1 t w2 l u Hw1 _ [M HM] Hw2 _ [K HK]. exists (S (M + K)). intros [|n] r Hn; [lia|]. cbn [pelems]. rewrite !sapp_assoc. cbn [append].
    rewrite HM; [|lia|exact Hw1|now apply numend_blank]. rewrite skip_blank by exact Hw2. rewrite skip_ws_id by reflexivity.
    change (code ",") with 44%N. cbn [N.eqb Pos.eqb]. rewrite HK by lia. reflexivity.
  - intros k kt e j w1 w2 w3 t w4 Hw1 Hk Hw2 Hw3 _ [M HM] Hw4. exists (S M). intros [|n] r Hn; [lia|]. unfold quoted. app_norm.
    cbn [pmembers]. rewrite skip_blank by exact Hw1. rewrite skip_ws_id by reflexivity. change (code (chr 34)) with 34%N. cbn [N.eqb Pos.eqb].
    change (chr 34) with dquote. rewrite (pstr_complete _ _ _ Hk). rewrite skip_blank by exact Hw2. rewrite skip_ws_id by reflexivity. change (code ":") with 58%N. cbn [N.eqb Pos.eqb].
    rewrite HM; [|lia|exact Hw3|now apply numend_blank]. rewrite skip_blank by exact Hw4. reflexivity.
  - intros k kt e j w1 w2 w3 t w4 l u Hw1 Hk Hw2 Hw3 _ [M HM] Hw4 _ [K HK]. exists (S (M + K)). intros [|n] r Hn; [lia|]. unfold quoted. app_norm.
    cbn [pmembers]. rewrite skip_blank by exact Hw1. rewrite skip_ws_id by reflexivity. change (code (chr 34)) with 34%N. cbn [N.eqb Pos.eqb].
    change (chr 34) with dquote. rewrite (pstr_complete _ _ _ Hk). rewrite skip_blank by exact Hw2. rewrite skip_ws_id by reflexivity. change (code ":") with 58%N. cbn [N.eqb Pos.eqb].
    rewrite HM; [|lia|exact Hw3|now apply numend_blank]. rewrite skip_blank by exact Hw4. rewrite skip_ws_id by reflexivity. change (code ",") with 44%N. cbn [N.eqb Pos.eqb].
    rewrite HK by lia. reflexivity.
Qed.

Lemma document_parse : forall s j, document s j -> parse s = Some j.
Proof.
  intros s j (w1 & u & w2 & H1 & H2 & H3 & ->). destruct (proj1 parse_complete_aux _ _ H2) as [M HM].
  apply (parse_complete M (w1 ++ u ++ w2) j w2).
  - apply HM; [lia|exact H1|]. pose proof (numend_blank w2 "" H3 eq_refl) as E. now rewrite sapp_nil_r in E.
  - pose proof (skip_blank w2 "" H3) as E. now rewrite sapp_nil_r in E.
Qed.

Theorem document_iff : forall s j, parse s = Some j <-> document s j.
Proof. intros s j. split; [apply parse_document|apply document_parse]. Qed.
