(** Reading of every number token. *)

From Coq Require Import Ascii String NArith ZArith List Bool Lia.
From Verif Require Import Bytes BytesFacts Json SpecText SpecJson GrammarFacts Float FloatFacts SpecFloat FloatFacts2 FloatFacts3.
Local Open Scope string_scope.
Local Open Scope Z_scope.

(** ** Scaling *)

Lemma pow10_nearest : forall x, nearest_even (10 ^ x * 2 ^ 1074) 1 (pow10 x).
Proof. intros x. apply round_nearest_even; [|lia]. apply Z.mul_nonneg_nonneg; apply Z.pow_nonneg; lia. Qed.
Lemma of_int_nearest : forall s, 0 <= s -> nearest_even (s * 2 ^ 1074) 1 (of_int s).
Proof. intros s H. apply round_nearest_even; [|lia]. apply Z.mul_nonneg_nonneg; [exact H|]. apply Z.pow_nonneg; lia. Qed.
Lemma finite_bound : 2 ^ 1024 * unit64 = 2 ^ 2098.
Proof. unfold unit64. rewrite <- Z.pow_add_r by lia. reflexivity. Qed.
Lemma mul_nearest : forall a b, 0 <= a -> 0 <= b -> nearest_even (a * b) (2 ^ 1074) (mul64 a b).
Proof. intros a b HA HB. apply round_nearest_even; [now apply Z.mul_nonneg_nonneg|exact unit_pos]. Qed.
Lemma div_nearest : forall a b, 0 <= a -> 0 < b -> nearest_even (a * 2 ^ 1074) b (div64 a b).
Proof. intros a b HA HB. apply round_nearest_even; [|exact HB]. apply Z.mul_nonneg_nonneg; [exact HA|]. apply Z.pow_nonneg; lia. Qed.
Lemma div_pow_nonneg : forall a x, 0 <= a -> 0 <= x -> 0 <= div64 a (pow10 x).
Proof.
  intros a x HA HX. apply is64_nonneg. pose proof (pow10_pos x HX). apply round_is64; [|assumption]. apply Z.mul_nonneg_nonneg; [exact HA|]. pose proof unit_pos. lia.
Qed.
(** One round. *)
Lemma near_scaled : forall r a x, 0 <= a -> Z.abs x <= 308 -> scaled a x (scale r a x).
Proof.
  intros r a x HA HX. assert (E : scale r a x = if 0 <=? x then if finite64 (mul64 a (pow10 x)) then Some (mul64 a (pow10 x)) else None else Some (div64 a (pow10 (- x)))).
  { destruct r; cbn [scale]; destruct (Z.leb_spec (Z.abs x) 308); try lia; reflexivity. }
  rewrite E. destruct (Z.leb_spec 0 x) as [C|C].
  - pose proof (pow10_pos x C) as PP. pose proof (mul_nearest a (pow10 x) HA ltac:(lia)) as HM. unfold finite64. rewrite finite_bound.
    destruct (Z.ltb_spec (mul64 a (pow10 x)) (2 ^ 2098)) as [F|F].
    + eapply sc_times; [lia|apply pow10_nearest|exact HM|exact F].
    + eapply sc_over; [lia|apply pow10_nearest|exact HM|exact F].
  - pose proof (pow10_pos (- x) ltac:(lia)) as PP. eapply sc_divided; [lia|apply pow10_nearest|]. now apply div_nearest.
Qed.
Lemma zero_scaled : forall r x, scaled 0 x (scale r 0 x).
Proof.
  intros r x. destruct (Z.le_gt_cases (Z.abs x) 308) as [C|C]; [apply near_scaled; lia|].
  replace (scale r 0 x) with (Some 0); [now apply sc_zero|]. destruct r; cbn [scale]; destruct (Z.leb_spec (Z.abs x) 308); try lia; reflexivity.
Qed.
Lemma step_scaled : forall r a x, 0 <= a -> (x < -308 -> 0 < a -> scaled (div64 a (pow10 308)) (x + 308) (scale r (div64 a (pow10 308)) (x + 308))) ->
  scaled a x (scale (S r) a x).
Proof.
  intros r a x HA HR. destruct (Z.le_gt_cases (Z.abs x) 308) as [C|C]; [now apply near_scaled|]. destruct (Z.eq_dec a 0) as [->|N]; [apply zero_scaled|].
  cbn [scale]. destruct (Z.leb_spec (Z.abs x) 308); [lia|]. destruct (Z.eqb_spec a 0); [contradiction|]. destruct (Z.leb_spec 0 x).
  - apply sc_large; lia.
  - eapply sc_far; [lia|lia|apply pow10_nearest| |apply HR; lia]. apply div_nearest; [exact HA|]. apply pow10_pos. lia.
Qed.
Lemma parts_scaled : forall s x, 0 <= s <= max_u64 -> scaled (of_int s) x (from_parts s x).
Proof.
  intros s x HS. unfold from_parts. pose proof (two_rounds s HS) as B. pose proof (is64_nonneg _ (of_int_is64 s ltac:(lia))) as N0.
  set (f := of_int s) in *. apply step_scaled; [exact N0|]. intros _ _. apply step_scaled; [apply div_pow_nonneg; lia|]. intros _ _. rewrite B. apply zero_scaled.
Qed.
Lemma of_int_zero : forall s, 0 <= s -> of_int s = 0 <-> s = 0.
Proof.
  intros s HS. split; intros H; [|subst s; apply round_zero; lia]. destruct (Z.eq_dec s 0) as [|N]; [assumption|]. exfalso.
  assert (1 * unit64 <= of_int s).
  { unfold of_int. pose proof unit_pos. apply round_lower; [nia|lia|apply small_is64; lia|nia]. }
  pose proof unit_pos. lia.
Qed.
(** Far away the exponent does not count. *)
Lemma scaled_high : forall s x y, 0 <= s <= max_u64 -> 308 < x -> 308 < y -> scaled (of_int s) y (from_parts s x).
Proof.
  intros s x y HS HX HY. unfold from_parts. cbn [scale]. destruct (Z.leb_spec (Z.abs x) 308); [lia|]. destruct (Z.eqb_spec (of_int s) 0) as [E|E].
  - rewrite E. apply sc_zero. lia.
  - destruct (Z.leb_spec 0 x); [|lia]. apply sc_large; [|exact HY]. pose proof (is64_nonneg _ (of_int_is64 s ltac:(lia))). lia.
Qed.
Lemma zero_low : forall r x, x < 0 -> scale r 0 x = Some 0.
Proof.
  intros r x HX. assert (D : forall y, 0 <= y -> div64 0 (pow10 y) = 0) by (intros y HY; apply round_zero; now apply pow10_pos).
  destruct r; cbn [scale]; (destruct (Z.leb_spec (Z.abs x) 308); [|reflexivity]; destruct (Z.leb_spec 0 x); [lia|]; rewrite D by lia; reflexivity).
Qed.
Lemma parts_low : forall s x, 0 <= s <= max_u64 -> x < -1000 -> from_parts s x = Some 0.
Proof.
  intros s x HS HX. unfold from_parts. pose proof (two_rounds s HS) as B. set (f := of_int s) in *. set (p := pow10 308) in *.
  cbn [scale]. fold p. rewrite B. clearbody p. clearbody f.
  destruct (Z.leb_spec (Z.abs x) 308); [lia|]. destruct (Z.eqb_spec f 0) as [->|_]; [reflexivity|]. destruct (Z.leb_spec 0 x); [lia|].
  destruct (Z.leb_spec (Z.abs (x + 308)) 308); [lia|]. destruct (Z.eqb_spec (div64 f p) 0) as [->|_]; [reflexivity|]. destruct (Z.leb_spec 0 (x + 308)); [lia|].
  destruct (Z.leb_spec (Z.abs (x + 308 + 308)) 308); [lia|]. reflexivity.
Qed.
Lemma scaled_low : forall s x y, 0 <= s <= max_u64 -> x < -1000 -> y < -1000 -> scaled (of_int s) y (from_parts s x).
Proof. intros s x y HS HX HY. rewrite parts_low by assumption. rewrite <- (parts_low s y) by assumption. now apply parts_scaled. Qed.

(** ** Digits *)

Lemma max_u64_lt : forall n, max_u64 < n <-> 2 ^ 64 <= n.
Proof. intros n. change (2 ^ 64) with (max_u64 + 1). lia. Qed.
Lemma skip_all : forall d n rest, sall is_digit d = true -> ends rest -> skip_digits n (d ++ rest) = (n + size d, rest).
Proof.
  induction d as [|c d IH]; intros n rest HD HR.
  - cbn [append]. replace (n + size "") with n by (unfold size; cbn; lia). destruct rest as [|c r]; [reflexivity|]. cbn [skip_digits]. cbn [ends] in HR. now rewrite HR.
  - cbn [sall] in HD. apply andb_true_iff in HD. destruct HD as [Hc Hd]. cbn [append skip_digits]. rewrite Hc, IH by assumption. f_equal. unfold size. cbn [String.length]. lia.
Qed.
(** The first digit that does not fit. *)
Definition stops (a : Z) (q : string) : Prop := match q with "" => True | String c _ => max_u64 < a * 10 + digit_val c end.
Lemma longest_vz : forall a p q, longest a p q -> vz (vz 0 a) p <= max_u64 /\ stops (vz (vz 0 a) p) q.
Proof.
  intros a p q [H1 H2]. rewrite digits_value_vz, vz_app in H1. split; [pose proof (max_u64_lt (vz (vz 0 a) p)); lia|]. destruct q as [|c r]; [exact I|]. cbn [stops].
  specialize (H2 c r eq_refl). rewrite digits_value_vz, !vz_app in H2. cbn [vz] in H2. now apply max_u64_lt.
Qed.
Lemma read_int_long : forall p a q rest, sall is_digit p = true -> sall is_digit q = true -> 0 <= a -> vz a p <= max_u64 -> stops (vz a p) q -> ends rest ->
  read_int a (p ++ q ++ rest) = (vz a p, size q, rest).
Proof.
  induction p as [|c p IH]; intros a q rest HP HQ HA HV HS HR.
  - cbn [append vz] in *. destruct q as [|c q]; [exact (read_int_ok "" a rest eq_refl HA HV HR)|]. cbn [stops] in HS. pose proof (skip_all (String c q) 0 rest HQ HR) as SK.
    cbn [sall] in HQ. apply andb_true_iff in HQ. destruct HQ as [Hc Hd]. cbn [append read_int] in *. rewrite Hc. destruct (Z.ltb_spec max_u64 (a * 10 + digit_val c)); [|lia].
    rewrite SK. reflexivity.
  - cbn [sall] in HP. apply andb_true_iff in HP. destruct HP as [Hc Hd]. cbn [append read_int vz] in *. rewrite Hc. apply digit_val_range in Hc.
    pose proof (vz_nonneg p (a * 10 + digit_val c) Hd ltac:(lia)). destruct (Z.ltb_spec max_u64 (a * 10 + digit_val c)); [lia|]. apply IH; try assumption. lia.
Qed.
Lemma read_frac_long : forall p a x q rest, sall is_digit p = true -> sall is_digit q = true -> 0 <= a -> vz a p <= max_u64 -> stops (vz a p) q -> ends rest ->
  read_frac a x (p ++ q ++ rest) = (vz a p, x - size p, rest).
Proof.
  induction p as [|c p IH]; intros a x q rest HP HQ HA HV HS HR.
  - cbn [append vz] in *. destruct q as [|c q]; [exact (read_frac_ok "" a x rest eq_refl HA HV HR)|]. cbn [stops] in HS. pose proof (skip_all (String c q) 0 rest HQ HR) as SK.
    cbn [sall] in HQ. apply andb_true_iff in HQ. destruct HQ as [Hc Hd]. cbn [append read_frac] in *. rewrite Hc. destruct (Z.ltb_spec max_u64 (a * 10 + digit_val c)); [|lia].
    rewrite SK. cbn [snd]. do 2 f_equal. unfold size. cbn. lia.
  - cbn [sall] in HP. apply andb_true_iff in HP. destruct HP as [Hc Hd]. cbn [append read_frac vz] in *. rewrite Hc. apply digit_val_range in Hc.
    pose proof (vz_nonneg p (a * 10 + digit_val c) Hd ltac:(lia)). destruct (Z.ltb_spec max_u64 (a * 10 + digit_val c)); [lia|].
    rewrite IH by (try assumption; lia). replace (x - 1 - size p) with (x - size (String c p)) by (unfold size; cbn [String.length]; lia). reflexivity.
Qed.

(** ** Exponent *)

Lemma exp_digits_over : forall d a, sall is_digit d = true -> 0 <= a -> max_i32 < vz a d -> a <= max_i32 -> read_exp_digits a d = None.
Proof.
  induction d as [|c d IH]; intros a HD HA HV HM; [cbn [vz] in HV; lia|]. cbn [sall] in HD. apply andb_true_iff in HD. destruct HD as [Hc Hd].
  cbn [read_exp_digits vz] in *. rewrite Hc. apply digit_val_range in Hc. destruct (Z.ltb_spec max_i32 (a * 10 + digit_val c)); [reflexivity|]. apply IH; try assumption. lia.
Qed.
Definition exp_value (neg : bool) (a x : Z) (d : string) : option Z :=
  match read_exp_digits 0 d with
  | Some n => from_parts a (if neg then Z.max min_i32 (x - n) else Z.min max_i32 (x + n))
  | None => if (negb (a =? 0) && negb neg)%bool then None else Some 0
  end.
Lemma exp_scaled : forall neg a x d, 0 <= a <= max_u64 -> -1000000000 < x < 1000000000 -> sall is_digit d = true ->
  scaled (of_int a) (if neg : bool then x - vz 0 d else x + vz 0 d) (exp_value neg a x d).
Proof.
  intros neg a x d HA HX HD. pose proof (vz_nonneg d 0 HD ltac:(lia)) as V. unfold exp_value. destruct (Z.le_gt_cases (vz 0 d) max_i32) as [C|C].
  - rewrite read_exp_ok by (try assumption; lia). unfold max_i32, min_i32 in *. destruct neg.
    + destruct (Z.le_gt_cases (-2147483648) (x - vz 0 d)) as [B|B]; [rewrite Z.max_r by lia; now apply parts_scaled|apply scaled_low; lia].
    + destruct (Z.le_gt_cases (x + vz 0 d) 2147483647) as [B|B]; [rewrite Z.min_r by lia; now apply parts_scaled|apply scaled_high; lia].
  - rewrite exp_digits_over by (try assumption; unfold max_i32 in *; lia). unfold max_i32 in C. pose proof (of_int_zero a ltac:(lia)) as OZ. destruct neg.
    + rewrite andb_false_r. rewrite <- (parts_low a (x - vz 0 d)) by lia. now apply parts_scaled.
    + rewrite andb_true_r. destruct (Z.eqb_spec a 0) as [E|E]; cbn [negb].
      * rewrite (proj2 OZ E). apply sc_zero. lia.
      * apply sc_large; [|lia]. pose proof (is64_nonneg _ (of_int_is64 a ltac:(lia))). assert (of_int a <> 0) by (intros Q; apply E; now apply OZ). lia.
Qed.
Lemma tail_scaled : forall e n a x, exponent e n -> 0 <= a <= max_u64 -> -1000000000 < x < 1000000000 -> ends e /\ scaled (of_int a) (x + n) (read_tail a x e).
Proof.
  intros e n a x HE HA HX. destruct HE as [|e d He HD|e d He HD|e d He HD].
  - split; [exact I|]. cbn [read_tail]. rewrite Z.add_0_r. now apply parts_scaled.
  - destruct (digits_cons d HD) as [c [r [Ed [Hc Hd]]]]. rewrite digits_value_vz in *.
    assert (RE : read_exp a x d = exp_value false a x d).
    { unfold read_exp. subst d. destruct (digit_plain c Hc) as [P1 [P2 _]]. rewrite P1, P2. reflexivity. }
    pose proof (exp_scaled false a x d HA HX Hd) as G. rewrite <- RE in G. destruct He as [-> | ->]; (split; [reflexivity|exact G]).
  - destruct (digits_cons d HD) as [c [r [Ed [Hc Hd]]]]. rewrite digits_value_vz in *.
    assert (RE : read_exp a x ("+" ++ d) = exp_value false a x d) by reflexivity.
    pose proof (exp_scaled false a x d HA HX Hd) as G. rewrite <- RE in G. destruct He as [-> | ->]; (split; [reflexivity|exact G]).
  - destruct (digits_cons d HD) as [c [r [Ed [Hc Hd]]]]. rewrite digits_value_vz in *.
    assert (RE : read_exp a x ("-" ++ d) = exp_value true a x d) by reflexivity.
    pose proof (exp_scaled true a x d HA HX Hd) as G. rewrite <- RE in G. replace (x + - vz 0 d) with (x - vz 0 d) by lia. destruct He as [-> | ->]; (split; [reflexivity|exact G]).
Qed.
Lemma parts_nought : forall a, 0 <= a <= max_u64 -> from_parts a 0 = Some (of_int a).
Proof.
  intros a HA. unfold from_parts. cbn [scale]. change (Z.abs 0 <=? 308) with true. cbv iota. change (0 <=? 0) with true. cbv iota zeta.
  assert (P : pow10 0 = unit64) by (rewrite pow10_exact by lia; change (10 ^ 0) with 1; apply Z.mul_1_l).
  assert (M : mul64 (of_int a) (pow10 0) = of_int a).
  { rewrite P. unfold mul64. apply round_exact; [|exact unit_pos]. apply of_int_is64. exact (proj1 HA). }
  rewrite M. replace (finite64 (of_int a)) with true; [reflexivity|]. symmetry. apply Z.ltb_lt. pose proof unit_pos.
  assert (of_int a <= 2 ^ 64 * unit64).
  { unfold of_int. apply round_upper; [nia|lia| |unfold max_u64 in HA; change (2 ^ 64) with 18446744073709551616; nia].
    rewrite <- (Z.mul_1_l (2 ^ 64)). apply int_is64; lia. }
  apply Z.le_lt_trans with (2 ^ 64 * unit64); [assumption|]. apply Z.mul_lt_mono_pos_r; [assumption|]. apply Z.pow_lt_mono_r; lia.
Qed.
Lemma all_app : forall a b, sall is_digit (a ++ b) = true -> sall is_digit a = true /\ sall is_digit b = true.
Proof. induction a as [|c a IH]; intros b H; [auto|]. cbn [append sall] in *. apply andb_true_iff in H. destruct H as [H1 H2]. destruct (IH b H2). rewrite H1. auto. Qed.
Lemma app_assoc3 : forall a b c : string, (a ++ b) ++ c = a ++ b ++ c.
Proof. induction a as [|x a IH]; intros b c; [reflexivity|]. cbn [append]. now rewrite IH. Qed.

Theorem read_all : forall neg i f fd e n s x, int_part i -> fraction f fd -> exponent e n -> collected i fd s x ->
  size i + size fd < 1000000000 ->
  exists a r, nearest_even (s * 2 ^ 1074) 1 a /\ scaled a (x + n) r /\ read64 ((if neg : bool then "-" else "") ++ i ++ f ++ e) = option_map (pair neg) r.
Proof.
  intros neg i f fd e n s x HI HF HE HC HT. destruct HC as [i1 i2 d1 d2 L1 L2]. destruct (int_part_cons _ HI) as [c [r [Ei [Hc Hi]]]].
  assert (HFD : sall is_digit (d1 ++ d2) = true) by (destruct HF as [|d HD]; [reflexivity|]; destruct (digits_cons d HD) as [_ [_ [_ [_ H]]]]; exact H).
  apply longest_vz in L1. apply longest_vz in L2. cbn [vz] in L1. destruct L1 as [V1 S1]. destruct L2 as [V2 S2].
  destruct (all_app _ _ Hi) as [A1 A2]. destruct (all_app _ _ HFD) as [B1 B2]. rewrite digits_value_vz, vz_app. set (a := vz 0 i1) in *. set (b := vz a d1) in *.
  assert (HA : 0 <= a) by (apply vz_nonneg; [exact A1|lia]). assert (HB : a <= b) by (apply vz_nonneg; assumption).
  rewrite !size_app in HT. assert (Z0 : 0 <= size i1 /\ 0 <= size i2 /\ 0 <= size d1 /\ 0 <= size d2) by (unfold size; lia).
  destruct (tail_scaled e n b (size i2 - size d1) HE ltac:(lia) ltac:(lia)) as [HEe HRT].
  exists (of_int b). 
  unfold read64. set (u := (i1 ++ i2) ++ f ++ e).
  assert (SG : (match (if neg then "-" else "") ++ u with String c0 r0 => if (code c0 =? 45)%N then (true, r0) else (false, (if neg then "-" else "") ++ u) | "" => (false, (if neg then "-" else "") ++ u) end) = (neg, u)).
  { destruct neg; [reflexivity|]. unfold u. rewrite Ei. cbn [append]. destruct (digit_plain c Hc) as [P _]. now rewrite P. }
  rewrite SG. clear SG. unfold u. rewrite app_assoc3.
  assert (ENDS : ends (f ++ e)) by (destruct HF; [exact HEe|reflexivity]).
  rewrite read_int_long by (first [assumption|lia|exact ENDS]). fold a. exists (read_tail b (size i2 - size d1) e).
  split; [apply of_int_nearest; lia|]. split; [exact HRT|]. remember (d1 ++ d2) as fd eqn:EF. destruct HF as [|d HDd].
  - destruct d1; [|discriminate EF]. cbn [append] in EF. subst d2. cbn [append]. change (vz a "") with a in b. change (size "") with 0 in *. rewrite Z.sub_0_r in *. unfold b in *. clear b.
    destruct e as [|c0 r0].
    + cbn [read_tail]. destruct (Z.eqb_spec (size i2) 0) as [->|_]; [rewrite parts_nought by lia; reflexivity|reflexivity].
    + now rewrite (exponent_head _ _ HE c0 r0 eq_refl).
  - rewrite EF. cbn [append]. change (code "." =? 46)%N with true. cbv iota. rewrite app_assoc3. rewrite read_frac_long by assumption. reflexivity.
Qed.

(** Such digits exist. *)
Lemma longest_total : forall q a, digits_value a < 2 ^ 64 -> exists p r, q = p ++ r /\ longest a p r.
Proof.
  induction q as [|c q IH]; intros a H.
  - exists "", "". split; [reflexivity|]. split; [now rewrite sapp_nil_r|discriminate].
  - destruct (Z.lt_ge_cases (digits_value (a ++ String c "")) (2 ^ 64)) as [L|L].
    + destruct (IH _ L) as [p [r [-> [H1 H2]]]]. exists (String c p), r. split; [reflexivity|]. rewrite app_assoc3 in H1. split; [exact H1|].
      intros c' r' E. specialize (H2 c' r' E). rewrite app_assoc3 in H2. exact H2.
    + exists "", (String c q). split; [reflexivity|]. split; [now rewrite sapp_nil_r|]. intros c' r' E. injection E as <- _. exact L.
Qed.
Lemma collected_total : forall i d, exists s x, collected i d s x.
Proof.
  intros i d. destruct (longest_total i "" ltac:(reflexivity)) as [i1 [i2 [-> L1]]]. destruct (longest_total d i1 (proj1 L1)) as [d1 [d2 [-> L2]]].
  do 2 eexists. apply col; eassumption.
Qed.
