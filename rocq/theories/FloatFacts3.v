(** Numbers that survive being read and printed, and the law assumed of the environment. *)

From Coq Require Import Ascii String NArith ZArith List Bool Lia.
From Verif Require Import Bytes BytesFacts Json JsonFacts Value ValueFacts Envelope Spec SpecFacts BodyFacts SpecText SpecJson GrammarFacts Float FloatFacts SpecFloat FloatFacts2.
Local Open Scope string_scope.
Local Open Scope Z_scope.

(** ** Results are f64 values *)

Lemma round_lower : forall p q b, 0 <= p -> 0 < q -> is64 b -> b * q <= p -> b <= round64 p q.
Proof.
  intros p q b Hp Hq HB H. pose proof (round_nearest p q b Hp Hq HB) as N.
  destruct (Z.le_gt_cases b (round64 p q)) as [|C]; [assumption|]. exfalso.
  rewrite (Z.abs_neq (round64 p q * q - p)) in N by nia. rewrite (Z.abs_neq (b * q - p)) in N by nia. nia.
Qed.
Lemma pow10_pos : forall k, 0 <= k -> 0 < pow10 k.
Proof.
  intros k H. pose proof unit_pos as UP. assert (T : 0 < 10 ^ k) by (apply Z.pow_pos_nonneg; lia).
  apply Z.lt_le_trans with unit64; [exact UP|]. unfold pow10, of_int. apply round_lower; [nia|lia| |nia].
  pose proof (int_is64 1 0 ltac:(lia) ltac:(lia)) as I. replace (1 * 2 ^ 0 * unit64) with unit64 in I by ring. exact I.
Qed.
Lemma of_int_is64 : forall n, 0 <= n -> is64 (of_int n).
Proof. intros n H. pose proof unit_pos. apply round_is64; nia. Qed.
Lemma scale_is64 : forall r f x v, is64 f -> scale r f x = Some v -> is64 v.
Proof.
  assert (D : forall f k, is64 f -> 0 <= k -> is64 (div64 f (pow10 k))).
  { intros f k HF HK. pose proof unit_pos. pose proof (is64_nonneg f HF). apply round_is64; [nia|now apply pow10_pos]. }
  induction r as [|r IH]; intros f x v HF H; cbn [scale] in H; destruct (Z.leb_spec (Z.abs x) 308) as [C|C].
  - destruct (Z.leb_spec 0 x); cbv zeta in H.
    + destruct (finite64 (mul64 f (pow10 x))); [|discriminate]. injection H as <-. pose proof (is64_nonneg f HF). pose proof (pow10_pos x). apply round_is64; [nia|apply unit_pos].
    + injection H as <-. apply D; [assumption|lia].
  - destruct (f =? 0); [injection H as <-; assumption|]. destruct (0 <=? x); [discriminate|]. injection H as <-. assumption.
  - destruct (Z.leb_spec 0 x); cbv zeta in H.
    + destruct (finite64 (mul64 f (pow10 x))); [|discriminate]. injection H as <-. pose proof (is64_nonneg f HF). pose proof (pow10_pos x). apply round_is64; [nia|apply unit_pos].
    + injection H as <-. apply D; [assumption|lia].
  - destruct (f =? 0); [injection H as <-; assumption|]. destruct (0 <=? x); [discriminate|]. eapply IH; [|exact H]. apply D; [assumption|lia].
Qed.
Lemma from_parts_is64 : forall s x v, 0 <= s -> from_parts s x = Some v -> is64 v.
Proof. intros s x v H G. unfold from_parts in G. eapply scale_is64; [|exact G]. now apply of_int_is64. Qed.
Lemma read_int_nonneg : forall s a b x r, 0 <= a -> read_int a s = (b, x, r) -> 0 <= b.
Proof.
  induction s as [|c s IH]; intros a b x r H G; cbn [read_int] in G; [injection G as <- _ _; exact H|].
  destruct (is_digit c) eqn:D; [|injection G as <- _ _; exact H]. apply digit_val_range in D. destruct (max_u64 <? a * 10 + digit_val c).
  - destruct (skip_digits 0 (String c s)). injection G as <- _ _. exact H.
  - eapply IH; [|exact G]. lia.
Qed.
Lemma read_frac_nonneg : forall s a y b x r, 0 <= a -> read_frac a y s = (b, x, r) -> 0 <= b.
Proof.
  induction s as [|c s IH]; intros a y b x r H G; cbn [read_frac] in G; [injection G as <- _ _; exact H|].
  destruct (is_digit c) eqn:D; [|injection G as <- _ _; exact H]. apply digit_val_range in D. destruct (max_u64 <? a * 10 + digit_val c).
  - injection G as <- _ _. exact H.
  - eapply IH; [|exact G]. lia.
Qed.
Lemma zero_is64 : is64 0.
Proof. exists 0, 0. repeat split; lia. Qed.
Lemma read_tail_is64 : forall a x s v, 0 <= a -> read_tail a x s = Some v -> is64 v.
Proof.
  intros a x s v HA H. destruct s as [|c r]; cbn [read_tail] in H; [now apply from_parts_is64 in H|].
  destruct ((code c =? 101) || (code c =? 69))%N%bool; [|now apply from_parts_is64 in H]. unfold read_exp in H.
  destruct (match r with "" => (false, r) | String c0 r0 => if (code c0 =? 45)%N then (true, r0) else if (code c0 =? 43)%N then (false, r0) else (false, r) end) as [neg d].
  destruct (read_exp_digits 0 d); [now apply from_parts_is64 in H|]. destruct (negb (a =? 0) && negb neg)%bool; [discriminate|]. injection H as <-. exact zero_is64.
Qed.
Lemma read64_is64 : forall t neg v, read64 t = Some (neg, v) -> is64 v.
Proof.
  intros t neg v H. unfold read64 in H.
  destruct (match t with "" => (false, t) | String c r => if (code c =? 45)%N then (true, r) else (false, t) end) as [sg u].
  destruct (read_int 0 u) as [[a x] rest] eqn:RI. pose proof (read_int_nonneg u 0 a x rest ltac:(lia) RI) as HA.
  destruct rest as [|c r].
  - destruct (x =? 0).
    + cbn [option_map] in H. injection H as _ <-. now apply of_int_is64.
    + destruct (from_parts a x) eqn:F; [|discriminate]. cbn [option_map] in H. injection H as _ <-. now apply from_parts_is64 in F.
  - destruct (code c =? 46)%N.
    + destruct (read_frac a x r) as [[a' x'] r'] eqn:RF. pose proof (read_frac_nonneg r a x a' x' r' HA RF) as HA'.
      destruct (read_tail a' x' r') eqn:F; [|discriminate]. cbn [option_map] in H. injection H as _ <-. now apply read_tail_is64 in F.
    + destruct (read_tail a x (String c r)) eqn:F; [|discriminate]. cbn [option_map] in H. injection H as _ <-. now apply read_tail_is64 in F.
Qed.

(** ** Rounds of the scaling loop *)

Lemma round_small : forall p q, 0 <= p -> 2 * p < q -> round64 p q = 0.
Proof.
  intros p q Hp Hq. unfold round64. cbv zeta. rewrite Z.div_small by lia. change (exp64 0) with 0. change (2 ^ 0) with 1. rewrite !Z.mul_1_r. apply div_even_unique; lia.
Qed.
Lemma scale_zero : forall r r' x, scale r 0 x = scale r' 0 x.
Proof. intros r r' x. destruct r, r'; cbn [scale]; destruct (Z.abs x <=? 308); reflexivity. Qed.
Lemma pow10_308 : 2 ^ 1022 * unit64 <= pow10 308.
Proof.
  pose proof unit_pos as UP. assert (T : 0 < 10 ^ 308) by (apply Z.pow_pos_nonneg; lia). unfold pow10, of_int. apply round_lower; [nia|lia| |].
  - rewrite <- (Z.mul_1_l (2 ^ 1022)). apply int_is64; lia.
  - rewrite Z.mul_1_r. apply Z.mul_le_mono_nonneg_r; [lia|]. vm_compute. discriminate.
Qed.
Lemma two_rounds : forall s, 0 <= s <= max_u64 -> div64 (div64 (of_int s) (pow10 308)) (pow10 308) = 0.
Proof.
  intros s HS. pose proof unit_pos as UP. pose proof pow10_308 as PT. pose proof (of_int_is64 s ltac:(lia)) as H0. pose proof (is64_nonneg _ H0) as N0.
  assert (B0 : of_int s <= 2 ^ 64 * unit64).
  { unfold of_int. apply round_upper; [nia|lia| |unfold max_u64 in HS; change (2 ^ 64) with 18446744073709551616; nia].
    rewrite <- (Z.mul_1_l (2 ^ 64)). apply int_is64; lia. }
  set (f := of_int s) in *. set (f1 := div64 f (pow10 308)). 
  assert (N1 : 0 <= f1) by (apply is64_nonneg, round_is64; [nia|lia]).
  assert (Q : 2 ^ 1022 = 2 ^ 64 * 2 ^ 958) by (replace 1022 with (64 + 958) by reflexivity; apply Z.pow_add_r; lia).
  assert (QU : unit64 = 2 ^ 116 * 2 ^ 958) by (unfold unit64; replace 1074 with (116 + 958) by reflexivity; apply Z.pow_add_r; lia).
  assert (P958 : 0 < 2 ^ 958) by (apply Z.pow_pos_nonneg; lia).
  assert (B1 : f1 <= 2 ^ 116).
  { apply round_upper; [nia|lia|exists 1, 116; repeat split; lia|].
    apply Z.le_trans with (2 ^ 64 * unit64 * unit64); [apply Z.mul_le_mono_nonneg_r; lia|].
    apply Z.le_trans with (2 ^ 116 * (2 ^ 1022 * unit64)); [|apply Z.mul_le_mono_nonneg_l; lia].
    rewrite Q. rewrite QU at 1. apply Z.eq_le_incl. ring. }
  apply round_small; [nia|]. apply Z.lt_le_trans with (2 ^ 1022 * unit64); [|exact PT].
  apply Z.le_lt_trans with (2 ^ 117 * unit64); [change (2 ^ 117) with (2 * 2 ^ 116); nia|]. apply Z.mul_lt_mono_pos_r; [exact UP|]. apply Z.pow_lt_mono_r; lia.
Qed.
Lemma scale_enough : forall r s x, 0 <= s <= max_u64 -> scale (2 + r) (of_int s) x = scale 2 (of_int s) x.
Proof.
  intros r s x HS. pose proof (two_rounds s HS) as B2. set (f := of_int s) in *.
  change (2 + r)%nat with (S (S r)). cbn [scale]. rewrite B2. rewrite (scale_zero r 0). reflexivity.
Qed.

(** ** What is printed *)

Lemma decimal_sign : forall u s x neg, decimal u false s x -> decimal ((if neg : bool then "-" else "") ++ u) neg s x.
Proof.
  intros u s x neg H. remember false as b eqn:EB. destruct H as [b i f fd e n HI HF HE]. subst b. cbn [append]. now constructor.
Qed.
Lemma tok_int_none : forall neg u, sall is_digit u = false -> (exists c r, u = String c r /\ is_digit c = true) -> tok_int ((if neg : bool then "-" else "") ++ u) = None.
Proof.
  intros neg u H [c [r [E D]]]. destruct neg.
  - cbn [append tok_int]. change (code "-" =? 45)%N with true. cbv iota. now rewrite H.
  - cbn [append]. subst u. cbn [tok_int]. destruct (digit_plain c D) as [P _]. now rewrite P, H.
Qed.
Lemma decimal_first : forall u s x, decimal u false s x -> exists c r, u = String c r /\ is_digit c = true.
Proof.
  intros u s x H. remember false as b eqn:EB. destruct H as [b i f fd e n HI HF HE]. subst b. destruct (int_part_cons i HI) as [c [r [-> [D _]]]].
  cbn [append]. eauto.
Qed.
Lemma print64_decimal : forall v, is64 v -> exists s x, decimal (print64 v) false s x /\ sall is_digit (print64 v) = false.
Proof.
  intros v HV. pose proof (is64_nonneg v HV). unfold print64. destruct (Z.eqb_spec v 0) as [->|N].
  - exists (digits_value "00"), (0 - size "0"). split; [|reflexivity].
    apply (dc_intro false "0" ("." ++ "0") "0" "" 0); [apply ip_zero|apply fr_some; now apply digits_intro|apply ex_none].
  - destruct (shortest v) as [n k] eqn:S. destruct (shortest_spec v n k HV ltac:(lia) S) as [N1 _].
    destruct (layout_decimal n k N1) as [s [x [D [C _]]]]. eauto.
Qed.
Lemma float_law : forall t t', float_text t = Some t' -> json_number t' /\ tok_int t' = None.
Proof.
  intros t t' H. unfold float_text in H. destruct (read64 t) as [[neg v]|] eqn:R; [|discriminate]. cbn [option_map] in H. injection H as <-.
  apply read64_is64 in R. destruct (print64_decimal v R) as [s [x [D C]]]. split.
  - apply number_iff. apply decimal_token. exists neg, s, x. now apply decimal_sign.
  - apply tok_int_none; [exact C|]. now apply decimal_first in D.
Qed.

(** ** Numbers that survive *)

Lemma dec_num_22 : forall n k, -22 <= k -> dec_num n k * 10 ^ 22 = n * 10 ^ (k + 22) * unit64 * dec_den k.
Proof.
  intros n k H. unfold dec_num, dec_den. destruct (Z.leb_spec 0 k) as [C|C].
  - rewrite Z.pow_add_r by lia. ring.
  - assert (E : 10 ^ 22 = 10 ^ (k + 22) * 10 ^ (- k)) by (rewrite <- Z.pow_add_r by lia; f_equal; lia). rewrite E. ring.
Qed.
Lemma dec_size : forall n j, 1 <= n < 10 ^ j -> 0 <= j -> size (dec_of_N (Z.to_N n)) <= j.
Proof.
  intros n j [H1 H2] HJ. destruct (dec_digits n H1) as [c [r [E [HB [Hr [Hc V]]]]]]. rewrite E.
  assert (10 ^ size r <= n).
  { rewrite <- V. cbn [vz]. rewrite vz_shift. pose proof (vz_nonneg r 0 Hr ltac:(lia)). rewrite between_code in HB. change (code "1") with 49%N in HB.
    assert (1 <= digit_val c) by (unfold digit_val; lia). assert (0 < 10 ^ size r) by (apply Z.pow_pos_nonneg; unfold size; lia). nia. }
  assert (size r < j). { apply (Z.pow_lt_mono_r_iff 10); [lia|lia|]. lia. } unfold size in *. cbn [String.length]. lia.
Qed.
Lemma dec_below : forall n, 1 <= n -> n < 10 ^ size (dec_of_N (Z.to_N n)).
Proof.
  intros n H. pose proof (dec_val_bound _ (dec_of_N_digits (Z.to_N n))) as B. rewrite dec_of_N_val in B. unfold size.
  assert (E : 10 ^ Z.of_nat (String.length (dec_of_N (Z.to_N n))) = Z.of_N (10 ^ N.of_nat (String.length (dec_of_N (Z.to_N n))))) by (rewrite N2Z.inj_pow, nat_N_Z; reflexivity).
  rewrite E. lia.
Qed.
Lemma decimal_digits : forall i f fd, int_part i -> fraction f fd -> sall is_digit (i ++ fd) = true.
Proof.
  intros i f fd HI HF. destruct (int_part_cons i HI) as [_ [_ [_ [_ Hi]]]]. rewrite sall_app, Hi.
  destruct HF as [|d HD]; [reflexivity|]. destruct (digits_cons d HD) as [_ [_ [_ [_ H]]]]. exact H.
Qed.
Lemma decimal_nonneg : forall t neg s x, decimal t neg s x -> 0 <= s.
Proof. intros t neg s x HD. destruct HD. rewrite digits_value_vz. apply vz_nonneg; [eapply decimal_digits; eassumption|lia]. Qed.
Lemma dec_of_Z_size : forall z, Z.abs z < 1000 -> size (dec_of_Z z) <= 4.
Proof.
  intros z H. assert (P : forall y, 0 <= y < 1000 -> size (dec_of_N (Z.to_N y)) <= 3).
  { intros y Y. destruct (Z.eq_dec y 0) as [->|]; [cbn; lia|]. apply dec_size; [change (10 ^ 3) with 1000|]; lia. }
  unfold dec_of_Z. destruct (Z.ltb_spec z 0); [rewrite size_app; change (size "-") with 1; specialize (P (- z)); lia|]. specialize (P z). lia.
Qed.
Lemma layout_size : forall n k, 1 <= n < 10 ^ 16 -> -100 <= k <= 100 -> size (layout n k) < 1000.
Proof.
  intros n k HN HK. pose proof (dec_size n 16 HN ltac:(lia)) as HD. unfold layout. set (d := dec_of_N (Z.to_N n)) in *. change (Z.of_nat (String.length d)) with (size d). cbv zeta.
  assert (D0 : 0 <= size d) by (unfold size; lia).
  destruct ((0 <=? k) && (size d + k <=? 16))%bool eqn:C1.
  { rewrite !size_app, zeros_size. change (size ".0") with 2. lia. }
  assert (TD : forall j, size (take j d) + size (drop j d) = size d) by (intros j; rewrite <- size_app, take_drop; reflexivity).
  destruct ((0 <? size d + k) && (size d + k <=? 16))%bool eqn:C2.
  { rewrite !size_app. change (size ".") with 1. specialize (TD (Z.to_nat (size d + k))). lia. }
  destruct ((-5 <? size d + k) && (size d + k <=? 0))%bool eqn:C3.
  { rewrite !size_app, zeros_size. change (size "0.") with 2. apply andb_true_iff in C3. rewrite Z.ltb_lt, Z.leb_le in C3. lia. }
  pose proof (dec_of_Z_size (size d + k - 1) ltac:(lia)) as ES.
  destruct (size d =? 1); rewrite !size_app; change (size "e") with 1; [lia|]. change (size ".") with 1. specialize (TD 1%nat). lia.
Qed.

Lemma near_bound : forall v n k s x, -22 <= k -> -22 <= x -> 2 ^ 51 * upper4 v <= (2 ^ 51 + 1) * lower4 v ->
  rounds_to (dec_num n k) (dec_den k) v -> rounds_to (dec_num s x) (dec_den x) v ->
  2 ^ 51 * (n * 10 ^ (k + 22)) <= (2 ^ 51 + 1) * (s * 10 ^ (x + 22)).
Proof.
  intros v n k s x HK HX RA [[_ U] _] [[L _] _]. pose proof (dec_num_22 n k HK) as HA. pose proof (dec_num_22 s x HX) as HB.
  pose proof (dec_den_pos k) as DK. pose proof (dec_den_pos x) as DX. pose proof unit_pos as UP.
  set (A := n * 10 ^ (k + 22)) in *. set (B := s * 10 ^ (x + 22)) in *.
  assert (P4 : 0 < 4 * unit64 * dec_den k * dec_den x) by (apply Z.mul_pos_pos; [apply Z.mul_pos_pos; lia|assumption]).
  apply (Z.mul_le_mono_pos_r _ _ (4 * unit64 * dec_den k * dec_den x)); [exact P4|].
  replace (2 ^ 51 * A * (4 * unit64 * dec_den k * dec_den x)) with (2 ^ 51 * (4 * (A * unit64 * dec_den k)) * dec_den x) by ring. rewrite <- HA.
  replace ((2 ^ 51 + 1) * B * (4 * unit64 * dec_den k * dec_den x)) with ((2 ^ 51 + 1) * (4 * (B * unit64 * dec_den x)) * dec_den k) by ring. rewrite <- HB.
  clear - RA L U DX DK. set (t := 10 ^ 22). assert (0 < t) by reflexivity. clearbody t. set (dn := dec_num n k) in *. set (ds := dec_num s x) in *. set (dk := dec_den k) in *. set (dx := dec_den x) in *. set (w := 2 ^ 51) in *. assert (0 < w) by reflexivity. clearbody w.
  apply Z.le_trans with (w * (upper4 v * dk) * t * dx); [replace (w * (4 * (dn * t)) * dx) with (4 * dn * (w * t * dx)) by ring; replace (w * (upper4 v * dk) * t * dx) with (upper4 v * dk * (w * t * dx)) by ring; apply Z.mul_le_mono_nonneg_r; nia|].
  apply Z.le_trans with ((w + 1) * (lower4 v * dx) * t * dk).
  - replace (w * (upper4 v * dk) * t * dx) with (w * upper4 v * (dk * t * dx)) by ring. replace ((w + 1) * (lower4 v * dx) * t * dk) with ((w + 1) * lower4 v * (dk * t * dx)) by ring. apply Z.mul_le_mono_nonneg_r; nia.
  - replace ((w + 1) * (lower4 v * dx) * t * dk) with (lower4 v * dx * ((w + 1) * t * dk)) by ring. replace ((w + 1) * (4 * (ds * t)) * dk) with (4 * ds * ((w + 1) * t * dk)) by ring. apply Z.mul_le_mono_nonneg_r; nia.
Qed.

Lemma modest_kept : forall t neg s x, decimal t neg s x -> modest s x -> size t < 2000000000 ->
  exists v, read64 t = Some (neg, v) /\ decimal_rounds_to s x v /\ read64 ((if neg then "-" else "") ++ print64 v) = Some (neg, v) /\
    exists s' x', decimal ((if neg then "-" else "") ++ print64 v) neg s' x' /\ same_value s x s' x'.
Proof.
  intros t neg s x HD [HS [HX HB1]] HT.
  assert (M15 : 10 ^ 15 < 2 ^ 53) by reflexivity. assert (M16 : 10 ^ 15 < max_u64) by reflexivity.
  assert (S0 : 0 <= s) by (destruct HD; rewrite digits_value_vz; apply vz_nonneg; [eapply decimal_digits; eassumption|lia]).
  destruct (read64_ok t neg s x HD ltac:(lia) ltac:(apply small_is64; lia) HX HT) as [_ HR]. pose proof unit_pos as UP. pose proof (dec_den_pos x) as DX.
  set (v := round64 (dec_num s x) (dec_den x)) in *. exists v. split; [exact HR|]. split; [now apply decimal_nearest|].
  destruct (Z.eq_dec s 0) as [->|SN].
  - assert (V0 : v = 0) by (unfold v; replace (dec_num 0 x) with 0 by (unfold dec_num; destruct (0 <=? x); ring); now apply round_zero).
    rewrite V0. change (print64 0) with "0.0".
    assert (D0 : decimal "0.0" false (digits_value "00") (0 - size "0")).
    { apply (dc_intro false "0" ("." ++ "0") "0" "" 0); [apply ip_zero|apply fr_some; now apply digits_intro|apply ex_none]. }
    apply (decimal_sign _ _ _ neg) in D0. pose proof D0 as D1. apply read64_ok in D0; [|change (digits_value "00") with 0; lia|change (digits_value "00") with 0; rewrite Z.mul_0_l; exact zero_is64|change (0 - size "0") with (-1); lia|destruct neg; reflexivity].
    destruct D0 as [_ D0]. rewrite D0. change (digits_value "00") with 0. change (0 - size "0") with (-1).
    replace (dec_num 0 (-1)) with 0 by reflexivity. rewrite round_zero by reflexivity. split; [reflexivity|].
    exists (digits_value "00"), (0 - size "0"). split; [exact D1|]. change (digits_value "00") with 0. split; intros _; ring.
  - assert (HV : is64 v) by (apply round_is64; [apply dec_num_pos; lia|assumption]).
    (* v is a normal number *)
    set (B := s * 10 ^ (x + 22)). assert (HB : dec_num s x * 10 ^ 22 = B * unit64 * dec_den x) by (apply dec_num_22; lia).
    assert (PX : 0 < 10 ^ (x + 22)) by (apply Z.pow_pos_nonneg; lia). assert (B1 : 1 <= B) by (unfold B; nia).
    assert (BU : B < 10 ^ 45).
    { unfold B. destruct (Z.le_gt_cases 0 x) as [C|C].
      - assert (s * 10 ^ x < 10 ^ 23) by (assert (10 ^ 15 < 10 ^ 23) by reflexivity; destruct (HB1 C); lia). rewrite Z.pow_add_r by lia. change (10 ^ 45) with (10 ^ 23 * 10 ^ 22). assert (0 < 10 ^ 22) by lia. nia.
      - apply Z.lt_le_trans with (10 ^ 15 * 10 ^ (x + 22)); [apply Z.mul_lt_mono_pos_r; assumption|]. rewrite <- Z.pow_add_r by lia. apply Z.pow_le_mono_r; lia. }
    assert (LV : 2 ^ 900 <= v).
    { apply round_lower; [apply dec_num_pos; lia|assumption|exists 1, 900; repeat split; lia|].
      apply (Z.mul_le_mono_pos_r _ _ (10 ^ 22)); [lia|]. rewrite HB.
      assert (LU : 2 ^ 900 * 10 ^ 22 <= unit64) by (vm_compute; discriminate).
      replace (2 ^ 900 * dec_den x * 10 ^ 22) with (2 ^ 900 * 10 ^ 22 * dec_den x) by ring. apply Z.mul_le_mono_nonneg_r; [lia|].
      apply Z.le_trans with (1 * unit64); [lia|]. apply Z.mul_le_mono_nonneg_r; lia. }
    assert (V0 : 0 < v) by (pose proof (Z.pow_pos_nonneg 2 900); lia).
    pose proof (round_out _ _ v (dec_num_pos s x S0) DX eq_refl V0) as HRT.
    unfold print64. replace (v =? 0) with false by (symmetry; apply Z.eqb_neq; lia). destruct (shortest v) as [n k] eqn:SH.
    destruct (shortest_spec v n k HV V0 SH) as [N1 [NR [NK _]]]. specialize (NK s x HRT).
    set (A := n * 10 ^ (k + 22)). assert (HA : dec_num n k * 10 ^ 22 = A * unit64 * dec_den k) by (apply dec_num_22; lia). pose proof (dec_den_pos k) as DK.
    (* the printed number is close to the given one *)
    destruct (exp64_spec v ltac:(lia)) as [E0 [EU EL]].
    assert (EP : 0 < exp64 v). { destruct (Z.eq_dec (exp64 v) 0) as [Z0|]; [|lia]. rewrite Z0 in EU. assert (2 ^ (53 + 0) < 2 ^ 900) by (apply Z.pow_lt_mono_r; lia). lia. }
    specialize (EL EP). rewrite Z.pow_add_r in EL by lia.
    assert (RA : 2 ^ 51 * upper4 v <= (2 ^ 51 + 1) * lower4 v).
    { set (u := 2 ^ exp64 v) in *. assert (PU : 0 < u) by (apply Z.pow_pos_nonneg; lia).
      assert (UL : upper4 v <= lower4 v + 4 * u /\ 4 * v - 2 * u <= lower4 v).
      { unfold upper4, lower4. cbv zeta. fold u. destruct ((v =? 2 ^ (52 + exp64 v)) && (0 <? exp64 v))%bool; lia. } destruct UL as [UL LL].
      change (2 ^ 51) with 2251799813685248; change (2 ^ 52) with 4503599627370496 in EL; lia. }
    assert (CL : 2 ^ 51 * A <= (2 ^ 51 + 1) * B) by (apply (near_bound v n k s x); try assumption; lia).
    assert (CR : 2 ^ 51 * B <= (2 ^ 51 + 1) * A) by (apply (near_bound v s x n k); try assumption; lia).
    assert (KX : 10 ^ (k + 22) = 10 ^ (k - x) * 10 ^ (x + 22)) by (rewrite <- Z.pow_add_r by lia; f_equal; lia).
    assert (NS : n * 10 ^ (k - x) = s).
    { assert (CL' : 2 ^ 51 * (n * 10 ^ (k - x)) <= (2 ^ 51 + 1) * s) by (apply (Z.mul_le_mono_pos_r _ _ (10 ^ (x + 22))); [assumption|]; unfold A, B in CL; rewrite KX in CL; lia).
      assert (CR' : 2 ^ 51 * s <= (2 ^ 51 + 1) * (n * 10 ^ (k - x))) by (apply (Z.mul_le_mono_pos_r _ _ (10 ^ (x + 22))); [assumption|]; unfold A, B in CR; rewrite KX in CR; lia).
      change (2 ^ 51) with 2251799813685248 in *. change (10 ^ 15) with 1000000000000000 in HS. lia. }
    assert (AB : A = B) by (unfold A, B; rewrite KX, <- NS; ring).
    assert (N2 : n < 10 ^ 15) by (assert (0 < 10 ^ (k - x)) by (apply Z.pow_pos_nonneg; lia); nia).
    assert (K2 : k <= 22).
    { destruct (Z.le_gt_cases k 22) as [|C]; [assumption|]. exfalso. assert (10 ^ 45 <= 10 ^ (k + 22)) by (apply Z.pow_le_mono_r; lia).
      rewrite <- AB in BU. unfold A in BU. nia. }
    assert (NV : round64 (dec_num n k) (dec_den k) = v) by (now apply round_in).
    destruct (layout_decimal n k N1) as [s' [x' [D [_ CASES]]]]. apply (decimal_sign _ _ _ neg) in D.
    assert (SZ : size ((if neg then "-" else "") ++ layout n k) < 2000000000).
    { rewrite size_app. pose proof (layout_size n k ltac:(assert (10 ^ 15 < 10 ^ 16) by reflexivity; lia) ltac:(lia)). destruct neg; [change (size "-") with 1|change (size "") with 0]; lia. }
    pose proof D as D'. destruct CASES as [[-> ->]|[K0 [LEN [-> ->]]]].
    + assert (SV : same_value s x n k).
      { split; intros C; [|rewrite <- NS; f_equal; f_equal; lia]. assert (k = x) by lia. subst k. rewrite <- NS, Z.sub_diag, Z.pow_0_r. ring. }
      apply read64_ok in D; [|lia|apply small_is64; lia|lia|exact SZ]. destruct D as [_ D]. rewrite D, NV. split; [reflexivity|]. eauto.
    + assert (NT : n * 10 ^ k < 10 ^ 16).
      { pose proof (dec_below n N1) as DB. apply Z.lt_le_trans with (10 ^ size (dec_of_N (Z.to_N n)) * 10 ^ k); [apply Z.mul_lt_mono_pos_r; [apply Z.pow_pos_nonneg; lia|exact DB]|].
        rewrite <- Z.pow_add_r by (unfold size; lia). apply Z.pow_le_mono_r; lia. }
      assert (NB : n * 10 ^ k < 10 ^ 15).
      { destruct (Z.le_gt_cases 0 x) as [C|C].
        - assert (XE : s * 10 ^ x = n * 10 ^ k) by (rewrite <- NS, <- Z.mul_assoc, <- Z.pow_add_r by lia; f_equal; f_equal; lia). rewrite <- XE in *. destruct (HB1 C); lia.
        - apply Z.le_lt_trans with s; [|exact HS]. rewrite <- NS. apply Z.mul_le_mono_nonneg_l; [lia|]. apply Z.pow_le_mono_r; lia. }
      assert (A4 : n * 10 ^ (k + 1) = n * 10 ^ k * 5 * 2 ^ 1) by (rewrite Z.pow_add_r by lia; change (10 ^ 1) with 10; change (2 ^ 1) with 2; ring).
      assert (A3 : is64 (n * 10 ^ (k + 1) * unit64)).
      { rewrite A4. apply int_is64; [|lia]. change (2 ^ 53) with 9007199254740992. change (10 ^ 15) with 1000000000000000 in NB. assert (0 < 10 ^ k) by (apply Z.pow_pos_nonneg; lia). nia. }
      assert (A5 : n * 10 ^ (k + 1) <= max_u64) by (rewrite A4; unfold max_u64; change (10 ^ 15) with 1000000000000000 in NB; change (2 ^ 1) with 2; lia).
      assert (SV : same_value s x (n * 10 ^ (k + 1)) (-1)).
      { rewrite <- NS. split; intros C; rewrite <- Z.mul_assoc, <- Z.pow_add_r by lia; f_equal; f_equal; lia. }
      apply read64_ok in D; [|exact A5|exact A3|lia|exact SZ]. destruct D as [_ D]. rewrite D. split; [|eauto]. do 2 f_equal. rewrite <- NV.
      unfold dec_num, dec_den. change (0 <=? -1) with false. replace (0 <=? k) with true by (symmetry; apply Z.leb_le; lia). cbv iota. change (10 ^ (- -1)) with 10.
      rewrite <- (round_scale (n * 10 ^ k * unit64) 1 10) by lia. f_equal. rewrite Z.pow_add_r by lia. change (10 ^ 1) with 10. ring.
Qed.
Lemma layout_same : forall n k s x, (s = n /\ x = k) \/ (0 <= k /\ s = n * 10 ^ (k + 1) /\ x = -1) -> same_value n k s x.
Proof.
  intros n k s x [[-> ->]|[K [-> ->]]]; split; intros C.
  - now rewrite Z.sub_diag, Z.pow_0_r, Z.mul_1_r.
  - now rewrite Z.sub_diag, Z.pow_0_r, Z.mul_1_r.
  - replace (k - -1) with (k + 1) by lia. reflexivity.
  - lia.
Qed.
Lemma print_shortest : forall v, binary64 v -> 0 < v -> exists n k s x, decimal (print64 v) false s x /\ same_value n k s x /\
  decimal_rounds_to n k v /\ (forall n' k', 0 <= n' -> decimal_rounds_to n' k' v -> k' <= k) /\
  (forall n', 0 <= n' -> decimal_rounds_to n' k v -> nearer k v n n').
Proof.
  intros v HV V0. unfold print64. replace (v =? 0) with false by (symmetry; apply Z.eqb_neq; lia). destruct (shortest v) as [n k] eqn:SH.
  destruct (shortest_spec v n k HV V0 SH) as [N1 [NR [NK NC]]]. destruct (layout_decimal n k N1) as [s [x [D [_ CASES]]]].
  assert (RT : forall n' k', 0 <= n' -> decimal_rounds_to n' k' v -> rounds_to (dec_num n' k') (dec_den k') v).
  { intros n' k' H HD. apply decimal_nearest in HD; [|exact H]. apply round_out; [now apply dec_num_pos|apply dec_den_pos|exact HD|exact V0]. }
  exists n, k, s, x. split; [exact D|]. split; [apply layout_same; tauto|]. split.
  { apply decimal_nearest; [lia|]. apply round_in; [exact HV|exact V0|apply dec_den_pos|exact NR]. }
  split; [intros n' k' H HD; eapply NK; apply RT; eassumption|].
  intros n' H HD. specialize (NC n' (RT n' k H HD)). unfold dec_num, dec_den, unit64 in NC. split; intros C.
  - replace (0 <=? k) with true in NC by (symmetry; apply Z.leb_le; lia). now rewrite !Z.mul_1_r in NC.
  - replace (0 <=? k) with false in NC by (symmetry; apply Z.leb_gt; lia). exact NC.
Qed.
Lemma modest_stable : forall t neg s x, decimal t neg s x -> modest s x -> size t < 2000000000 ->
  exists t' s' x', float_text t = Some t' /\ float_text t' = Some t' /\ decimal t' neg s' x' /\ same_value s x s' x'.
Proof.
  intros t neg s x HD HM HT. destruct (modest_kept t neg s x HD HM HT) as [v [R [_ [P [s' [x' [D V]]]]]]].
  exists ((if neg then "-" else "") ++ print64 v), s', x'. unfold float_text. rewrite R, P. cbn [option_map]. auto.
Qed.

(** ** Documents *)

Lemma modest_vnum : forall R t, fnorm R = float_text -> json_number t -> modest_token t ->
  exists t', vnum R t = Some t' /\ vnum R t' = Some t' /\ same_number t t'.
Proof.
  intros R t HR HN [HT [neg [s [x [HD HM]]]]]. destruct (int64_dec t HN) as [HI|HI].
  - exists t. rewrite vnum_int by assumption. repeat split. now apply sn_int.
  - destruct (modest_stable t neg s x HD HM HT) as [t' [s' [x' [F [F' [D V]]]]]]. exists t'. rewrite (vnum_float R t HN HI), HR.
    split; [exact F|]. split; [|now apply (sn_num t t' neg s x s' x')]. unfold vnum. destruct (float_law t t' F) as [_ ->]. now rewrite HR.
Qed.
Lemma modest_number : forall R t, fnorm R = float_text -> json_number t -> (int64_token t \/ modest_token t) ->
  exists t', vnum R t = Some t' /\ vnum R t' = Some t' /\ same_number t t'.
Proof.
  intros R t HR HN [HI|HM]; [|now apply modest_vnum]. exists t. rewrite vnum_int by assumption. repeat split. now apply sn_int.
Qed.
Lemma modest_vof : forall R, fnorm R = float_text -> forall j, num_wf j -> modest_numbers j -> ordinary j -> exists v, vof R j = Some v.
Proof.
  intros R HR. apply (json_rect2 (fun j => num_wf j -> modest_numbers j -> ordinary j -> exists v, vof R j = Some v)).
  - intros _ _ _. now exists JNull.
  - intros b _ _ _. now exists (JBool b).
  - intros t HW HM _. assert (HC : int64_token t \/ modest_token t) by (inversion HM; auto). destruct (modest_number R t HR HW HC) as [t' [H _]].
    exists (JNum t'). now rewrite vof_num, H.
  - intros e s _ _ _. eexists. apply vof_str.
  - intros l IH HW HM HO. rewrite vof_arr. apply num_wf_arr in HW. rewrite Forall_forall in IH, HW. inversion HM as [| | | | |? HL|]; subst. inversion HO; subst.
    destruct (all_some_intro _ _ (vof R) l) as [r Hr]; [intros x Hx; apply IH; auto|]. rewrite Hr. eexists. reflexivity.
  - intros l IH HW HM HO. rewrite vof_obj, (proj1 (plain_start_iff l) (ordinary_start l HO)). apply num_wf_obj in HW. rewrite Forall_forall in IH, HW. inversion HM as [| | | | | |? HL]; subst. inversion HO as [| | | | |? HX]; subst.
    destruct (all_some_intro _ _ (fun kv => okv (fst kv) (vof R (snd kv))) l) as [r Hr].
    { intros x Hx. destruct (IH x Hx) as [v Hv]; [now apply HW|now apply HL|now apply HX|]. rewrite Hv. eexists. reflexivity. }
    rewrite Hr. eexists. reflexivity.
Qed.
Lemma modest_reads : forall R, fnorm R = float_text -> forall j v, num_wf j -> modest_numbers j -> ordinary j -> reads R j v -> stable R v /\ same_content j v.
Proof.
  intros R HR. apply (json_rect2 (fun j => forall v, num_wf j -> modest_numbers j -> ordinary j -> reads R j v -> stable R v /\ same_content j v)).
  - intros v _ _ _ H. inversion H. split; constructor.
  - intros b v _ _ _ H. inversion H. split; constructor.
  - intros t v HW HM _ H. inversion H as [| |? t' HN| | | |]; subst. assert (HC : int64_token t \/ modest_token t) by (inversion HM; auto).
    destruct (modest_number R t HR HW HC) as [t2 [H1 [H2 H3]]]. apply vnum_reads in HN; [|exact HW]. assert (t2 = t') by congruence. subst t2. split; now constructor.
  - intros e s v _ _ _ H. inversion H. split; constructor.
  - intros l IH v HW HM HO H. inversion H as [| | | |? l1 F1| |]; subst. inversion HO as [| | | |? HX|]; subst. apply num_wf_arr in HW. rewrite Forall_forall in IH, HW. inversion HM as [| | | | |? HL|]; subst.
    split; constructor.
    + intros y Hy. destruct (Forall2_In_r _ _ _ _ _ _ F1 Hy) as [x [Hx Hr]]. eapply IH; eauto.
    + clear H HM HO. induction F1 as [|x y l l' Hxy F1 IHF]; constructor.
      * apply (IH x); [now left|apply HW; now left|apply HL; now left|apply HX; now left|exact Hxy].
      * apply IHF; intros; try (apply IH); try (apply HW); try (apply HL); try (apply HX); try (now right); assumption.
  - intros l IH v HW HM HO H. inversion HO as [| | | | |? HX]; subst. inversion H as [| | | | |? e1 P1 S1 B1 C1 D1|]; subst.
    2: { exfalso. apply (HX (reserved_name, JStr e s)); [now left|reflexivity]. }
    apply num_wf_obj in HW. rewrite Forall_forall in IH, HW. inversion HM as [| | | | | |? HL]; subst.
    assert (P : forall k y, In (k, y) e1 -> exists j, last_binding l k j /\ stable R y /\ same_content j y).
    { intros k y Hy. destruct (B1 _ _ Hy) as [j [Hj Hr]]. exists j. split; [exact Hj|]. apply last_binding_In in Hj. exact (IH (k, j) Hj y (HW _ Hj) (HL _ Hj) (proj2 (HX _ Hj)) Hr). }
    split; constructor.
    + intros k y r ->. destruct (P k y (or_introl eq_refl)) as [j [Q _]]. apply last_binding_In in Q. apply (HX _ Q).
    + intros [k y] Hy. cbn [snd]. destruct (P k y Hy) as [j [_ [Q _]]]. exact Q.
    + exact S1.
    + intros k y Hy. destruct (P k y Hy) as [j [Q1 [_ Q2]]]. eauto.
    + exact C1.
Qed.
