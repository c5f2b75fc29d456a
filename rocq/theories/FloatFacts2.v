(** Reading and printing number tokens. *)

From Coq Require Import Ascii String NArith ZArith List Bool Lia.
From Verif Require Import Bytes BytesFacts Json SpecText SpecJson GrammarFacts Float FloatFacts SpecFloat.
Local Open Scope string_scope.
Local Open Scope Z_scope.

(** ** Nearest values *)

Lemma is64_even : forall x, is64 x -> closed x = true -> even_last x.
Proof.
  intros x HX HC. destruct (is64_form x HX) as [m [M [EX [ML EM]]]]. unfold closed in HC. rewrite EM in HC. apply Z.even_spec in HC. destruct HC as [h HC].
  exists h, (exp64 x). assert (0 <= exp64 x) by (unfold exp64; lia). split; [assumption|]. split; [lia|]. split; [|rewrite <- HC; exact EX].
  destruct (Z.eq_dec (exp64 x) 0) as [Z0|N0]; [now left|right]. specialize (ML ltac:(lia)). lia.
Qed.
Lemma even_is64 : forall x, 0 <= x -> even_last x -> closed x = true.
Proof.
  intros x H0 [m [e [E [M [L EX]]]]]. assert (P : 0 < 2 ^ e) by (apply Z.pow_pos_nonneg; lia).
  assert (HE : exp64 x = e).
  { apply exp64_unique; [lia|lia| |].
    - rewrite EX, Z.pow_add_r by lia. nia.
    - destruct L as [L|L]; [now left|right]. rewrite EX, Z.pow_add_r by lia. nia. }
  unfold closed. rewrite HE, EX, Z.div_mul by lia. now rewrite Z.even_mul.
Qed.
(** The neighbours of [x] are a gap away. *)
Lemma gap_above : forall x y, is64 x -> is64 y -> x < y -> x + 2 ^ exp64 x <= y.
Proof.
  intros x y HX HY H. destruct (is64_form x HX) as [m [M [EX [ML _]]]]. destruct (is64_form y HY) as [n [N [EY [NL _]]]].
  destruct (exp64_spec x (is64_nonneg x HX)) as [E0 [EU EL]]. destruct (exp64_spec y (is64_nonneg y HY)) as [F0 [FU FL]].
  assert (C : exp64 x <= exp64 y).
  { destruct (Z.le_gt_cases (exp64 x) (exp64 y)) as [|C]; [assumption|]. specialize (EL ltac:(lia)).
    assert (2 ^ (53 + exp64 y) <= 2 ^ (52 + exp64 x)) by (apply Z.pow_le_mono_r; lia). lia. }
  set (u := 2 ^ exp64 x) in *. assert (P : 0 < u) by (apply Z.pow_pos_nonneg; lia).
  assert (EY' : y = n * 2 ^ (exp64 y - exp64 x) * u). { rewrite EY at 1. unfold u. rewrite <- Z.mul_assoc, <- Z.pow_add_r by lia. do 2 f_equal. lia. }
  set (n' := n * 2 ^ (exp64 y - exp64 x)) in *. rewrite EX in H. rewrite EY' in H |- *. rewrite EX at 1. assert (m < n') by nia. nia.
Qed.
Lemma next_is64 : forall x, is64 x -> is64 (x + 2 ^ exp64 x).
Proof.
  intros x HX. destruct (is64_form x HX) as [m [M [EX _]]]. assert (E0 : 0 <= exp64 x) by (unfold exp64; lia). rewrite EX at 1.
  replace (m * 2 ^ exp64 x + 2 ^ exp64 x) with ((m + 1) * 2 ^ exp64 x) by ring. destruct (Z.eq_dec (m + 1) (2 ^ 53)) as [N|N].
  - rewrite N. exists (2 ^ 52), (exp64 x + 1). split; [split; [lia|reflexivity]|]. split; [lia|]. rewrite Z.pow_add_r by lia. change (2 ^ 53) with (2 ^ 52 * 2 ^ 1). lia.
  - exists (m + 1), (exp64 x). repeat split; lia.
Qed.
(** The next value above one whose last bit is 0 has last bit 1. *)
Lemma next_odd : forall x, is64 x -> closed x = true -> closed (x + 2 ^ exp64 x) = true -> False.
Proof.
  intros x HX HC HN. destruct (is64_form x HX) as [m [M [EX [ML EM]]]]. unfold closed in HC. rewrite EM in HC. assert (E0 : 0 <= exp64 x) by (unfold exp64; lia).
  assert (P : 0 < 2 ^ exp64 x) by (apply Z.pow_pos_nonneg; lia).
  assert (M1 : m + 1 < 2 ^ 53). { destruct (Z.eq_dec m (2 ^ 53 - 1)) as [->|]; [discriminate HC|lia]. }
  assert (EX' : x + 2 ^ exp64 x = (m + 1) * 2 ^ exp64 x) by (rewrite EX at 1; ring).
  assert (HE : exp64 (x + 2 ^ exp64 x) = exp64 x).
  { apply exp64_unique; [rewrite EX'; nia|lia| |].
    - rewrite EX', Z.pow_add_r by lia. nia.
    - destruct (Z.eq_dec (exp64 x) 0) as [Z0|N0]; [now left|right]. specialize (ML ltac:(lia)). rewrite EX', Z.pow_add_r by lia. nia. }
  unfold closed in HN. rewrite HE, EX', Z.div_mul in HN by lia. rewrite Z.even_add, HC in HN. discriminate HN.
Qed.
Lemma round_nearest_even : forall p q, 0 <= p -> 0 < q -> nearest_even p q (round64 p q).
Proof.
  intros p q Hp Hq. pose proof (round_is64 p q Hp Hq) as HX. split; [exact HX|]. split; [intros y HY; now apply round_nearest|].
  intros y HY NE HD. set (x := round64 p q) in *. pose proof (is64_nonneg x HX) as X0.
  destruct (Z.eq_dec x 0) as [Z0|N0]. { rewrite Z0. exists 0, 0. repeat split; try lia. }
  apply is64_even; [exact HX|]. destruct (closed x) eqn:C; [reflexivity|]. exfalso.
  assert (HR : rounds_to p q x) by (apply round_out; [assumption|assumption|reflexivity|lia]). destruct HR as [_ [HR|[L U]]]; [congruence|].
  set (u := 2 ^ exp64 x) in *. assert (P : 0 < u) by (apply Z.pow_pos_nonneg; [lia|unfold exp64; lia]).
  assert (L4 : 4 * x - 2 * u <= lower4 x) by (unfold lower4; cbv zeta; fold u; destruct ((x =? 2 ^ (52 + exp64 x)) && (0 <? exp64 x))%bool; lia).
  unfold upper4 in U. fold u in U. destruct (Z.lt_trichotomy y x) as [G|[G|G]]; [|contradiction|].
  - (* below: the gap under an odd value is a full one *)
    assert (y + u <= x).
    { destruct (is64_form x HX) as [m [M [EX [ML EM]]]]. fold u in EX. unfold closed in C. rewrite EM in C.
      assert (HM : is64 (x - u)). { exists (m - 1), (exp64 x). split; [split; [nia|lia]|]. split; [unfold exp64; lia|]. fold u. rewrite EX at 1. ring. }
      destruct (Z.le_gt_cases y (x - u)) as [|B]; [lia|]. exfalso. pose proof (gap_above _ _ HM HY ltac:(lia)) as GA.
      assert (exp64 (x - u) = exp64 x).
      { apply exp64_unique; [apply is64_nonneg; exact HM|unfold exp64; lia| |].
        - destruct (exp64_spec x X0) as [_ [XU _]]. lia.
        - destruct (Z.eq_dec (exp64 x) 0) as [Z1|N1]; [now left|right]. assert (E0 : 0 <= exp64 x) by (unfold exp64; lia). specialize (ML ltac:(lia)).
          assert (m <> 2 ^ 52) by (intros ->; discriminate C). rewrite Z.pow_add_r by lia. fold u. nia. }
      rewrite H in GA. fold u in GA. lia. }
    assert (Z.abs (x * q - p) < Z.abs (y * q - p)); [|lia]. rewrite (Z.abs_neq (y * q - p)) by nia. apply Z.abs_lt. split; nia.
  - pose proof (gap_above x y HX HY G) as GA. fold u in GA.
    assert (Z.abs (x * q - p) < Z.abs (y * q - p)); [|lia]. rewrite (Z.abs_eq (y * q - p)) by nia. apply Z.abs_lt. split; nia.
Qed.
Lemma nearest_iff : forall p q x, 0 <= p -> 0 < q -> nearest_even p q x <-> round64 p q = x.
Proof.
  intros p q x Hp Hq. split; [|intros <-; now apply round_nearest_even].
  intros [HX [HN HT]]. destruct (round_nearest_even p q Hp Hq) as [HR [RN RT]]. set (r := round64 p q) in *.
  destruct (Z.eq_dec r x) as [|NE]; [assumption|]. exfalso. pose proof (HN r HR) as A. pose proof (RN x HX) as B.
  assert (EQ : Z.abs (x * q - p) = Z.abs (r * q - p)) by lia.
  pose proof (RT x HX ltac:(congruence) EQ) as ER. pose proof (HT r HR NE ltac:(congruence)) as EX.
  apply even_is64 in ER; [|now apply is64_nonneg]. apply even_is64 in EX; [|now apply is64_nonneg].
  assert (K : forall a b, is64 a -> is64 b -> a < b -> closed a = true -> closed b = true ->
    Z.abs (a * q - p) = Z.abs (b * q - p) -> (forall y, is64 y -> Z.abs (a * q - p) <= Z.abs (y * q - p)) -> False).
  { intros a b HA HB LT CA CB E N. pose proof (gap_above a b HA HB LT) as G. pose proof (next_is64 a HA) as NA.
    set (y := a + 2 ^ exp64 a) in *. assert (P : 0 < 2 ^ exp64 a) by (apply Z.pow_pos_nonneg; [lia|unfold exp64; lia]).
    destruct (Z.eq_dec y b) as [Y|Y]; [rewrite <- Y in CB; exact (next_odd a HA CA CB)|]. specialize (N y NA).
    assert (a < y < b) by (unfold y; lia). clearbody y. assert (a * q < y * q < b * q) by nia. lia. }
  destruct (Z.lt_total r x) as [LT|[EQ'|LT]]; [|contradiction|].
  - exact (K r x HR HX LT ER EX (eq_sym EQ) RN).
  - exact (K x r HX HR LT EX ER EQ HN).
Qed.
Lemma decimal_nearest : forall s k x, 0 <= s -> decimal_rounds_to s k x <-> round64 (dec_num s k) (dec_den k) = x.
Proof.
  intros s k x Hs. rewrite <- nearest_iff by (try apply dec_num_pos; try apply dec_den_pos; assumption).
  unfold decimal_rounds_to, dec_num, dec_den. fold unit64. destruct (Z.leb_spec 0 k) as [C|C].
  - split; [intros [A _]; now apply A|]. intros A. split; [auto|lia].
  - split; [intros [_ A]; now apply A|]. intros A. split; [lia|auto].
Qed.

(** ** Reading *)

Fixpoint vz (a : Z) (s : string) : Z := match s with "" => a | String c r => vz (a * 10 + digit_val c) r end.
Lemma digits_value_vz : forall s, digits_value s = vz 0 s.
Proof.
  intros s. unfold digits_value. generalize 0. induction s as [|c s IH]; intros a; [reflexivity|]. cbn [list_ascii_of_string fold_left vz]. apply IH.
Qed.
Lemma vz_app : forall s t a, vz a (s ++ t) = vz (vz a s) t.
Proof. induction s as [|c s IH]; intros t a; [reflexivity|]. cbn [append vz]. apply IH. Qed.
Lemma vz_shift : forall s a, vz a s = a * 10 ^ size s + vz 0 s.
Proof.
  induction s as [|c s IH]; intros a; [cbn; lia|]. cbn [vz]. rewrite IH, (IH (0 * 10 + digit_val c)). unfold size. cbn [String.length].
  rewrite Nat2Z.inj_succ, Z.pow_succ_r by lia. ring.
Qed.
Lemma digit_val_range : forall c, is_digit c = true -> 0 <= digit_val c <= 9.
Proof. intros c H. unfold is_digit in H. apply andb_true_iff in H. rewrite !N.leb_le in H. unfold digit_val. lia. Qed.
Lemma vz_nonneg : forall s a, sall is_digit s = true -> 0 <= a -> a <= vz a s.
Proof.
  induction s as [|c s IH]; intros a H Ha; [cbn; lia|]. cbn [sall] in H. apply andb_true_iff in H. destruct H as [Hc Hs]. apply digit_val_range in Hc.
  cbn [vz]. specialize (IH (a * 10 + digit_val c) Hs). lia.
Qed.
Lemma vz_dec_val : forall s n, sall is_digit s = true -> Z.of_N (dec_val n s) = vz (Z.of_N n) s.
Proof.
  induction s as [|c s IH]; intros n H; [reflexivity|]. cbn [sall] in H. apply andb_true_iff in H. destruct H as [Hc Hs]. cbn [dec_val vz]. rewrite IH by assumption.
  f_equal. unfold is_digit in Hc. apply andb_true_iff in Hc. rewrite !N.leb_le in Hc. unfold digit_val. lia.
Qed.
Lemma size_app : forall a b, size (a ++ b) = size a + size b.
Proof. intros a b. unfold size. rewrite <- Nat2Z.inj_add. f_equal. induction a as [|c a IH]; [reflexivity|]. cbn [append String.length]. now rewrite IH. Qed.

(** What follows the digits. *)
Definition ends (s : string) : Prop := match s with "" => True | String c _ => is_digit c = false end.
Lemma read_int_ok : forall d a rest, sall is_digit d = true -> 0 <= a -> vz a d <= max_u64 -> ends rest -> read_int a (d ++ rest) = (vz a d, 0, rest).
Proof.
  induction d as [|c d IH]; intros a rest HD HA HV HR.
  - cbn [append vz]. destruct rest as [|c r]; [reflexivity|]. cbn [read_int]. cbn [ends] in HR. now rewrite HR.
  - cbn [sall] in HD. apply andb_true_iff in HD. destruct HD as [Hc Hd]. cbn [append read_int vz] in *. rewrite Hc. apply digit_val_range in Hc.
    pose proof (vz_nonneg d (a * 10 + digit_val c) Hd ltac:(lia)). destruct (Z.ltb_spec max_u64 (a * 10 + digit_val c)); [lia|]. apply IH; try assumption. lia.
Qed.
Lemma read_frac_ok : forall d a x rest, sall is_digit d = true -> 0 <= a -> vz a d <= max_u64 -> ends rest -> read_frac a x (d ++ rest) = (vz a d, x - size d, rest).
Proof.
  induction d as [|c d IH]; intros a x rest HD HA HV HR.
  - cbn [append vz]. replace (x - size "") with x by (unfold size; cbn; lia). destruct rest as [|c r]; [reflexivity|]. cbn [read_frac]. cbn [ends] in HR. now rewrite HR.
  - cbn [sall] in HD. apply andb_true_iff in HD. destruct HD as [Hc Hd]. cbn [append read_frac vz] in *. rewrite Hc. apply digit_val_range in Hc.
    pose proof (vz_nonneg d (a * 10 + digit_val c) Hd ltac:(lia)). destruct (Z.ltb_spec max_u64 (a * 10 + digit_val c)); [lia|].
    rewrite IH by (try assumption; lia). replace (x - 1 - size d) with (x - size (String c d)) by (unfold size; cbn [String.length]; lia). reflexivity.
Qed.
Lemma read_exp_ok : forall d a, sall is_digit d = true -> 0 <= a -> vz a d <= max_i32 -> read_exp_digits a d = Some (vz a d).
Proof.
  induction d as [|c d IH]; intros a HD HA HV; [reflexivity|]. cbn [sall] in HD. apply andb_true_iff in HD. destruct HD as [Hc Hd].
  cbn [read_exp_digits vz] in *. rewrite Hc. apply digit_val_range in Hc. pose proof (vz_nonneg d (a * 10 + digit_val c) Hd ltac:(lia)).
  destruct (Z.ltb_spec max_i32 (a * 10 + digit_val c)); [lia|]. apply IH; try assumption. lia.
Qed.
Lemma digit_plain : forall c, is_digit c = true -> (code c =? 45)%N = false /\ (code c =? 43)%N = false /\ (code c =? 46)%N = false.
Proof. intros c H. unfold is_digit in H. apply andb_true_iff in H. rewrite !N.leb_le in H. rewrite !N.eqb_neq. lia. Qed.
Lemma digits_cons : forall d, digits d -> exists c r, d = String c r /\ is_digit c = true /\ sall is_digit d = true.
Proof.
  intros d [N H]. apply sall_digits in H. destruct d as [|c r]; [contradiction|]. exists c, r. split; [reflexivity|]. split; [|exact H].
  cbn [sall] in H. now apply andb_true_iff in H.
Qed.
Lemma int_part_cons : forall i, int_part i -> exists c r, i = String c r /\ is_digit c = true /\ sall is_digit i = true.
Proof.
  intros i [|c s B A]; [exists "0"%char, ""; auto|]. rewrite between_code in B. change (code "1") with 49%N in B. change (code "9") with 57%N in B.
  assert (D : is_digit c = true) by (unfold is_digit; apply andb_true_iff; rewrite !N.leb_le; lia).
  exists c, s. split; [reflexivity|]. split; [exact D|]. cbn [sall]. rewrite D. now apply sall_digits.
Qed.
Lemma read_tail_ok : forall e n a x, exponent e n -> Z.abs n <= max_i32 -> min_i32 <= x + n <= max_i32 -> ends e /\ read_tail a x e = from_parts a (x + n).
Proof.
  intros e n a x HE HN HX. destruct HE as [|e d He HD|e d He HD|e d He HD].
  - split; [exact I|]. cbn [read_tail]. f_equal. lia.
  - destruct (digits_cons d HD) as [c [r [Ed [Hc Hd]]]]. rewrite digits_value_vz in *. pose proof (vz_nonneg d 0 Hd ltac:(lia)).
    assert (RE : read_exp a x d = from_parts a (x + vz 0 d)).
    { unfold read_exp. subst d. destruct (digit_plain c Hc) as [P1 [P2 _]]. rewrite P1, P2. rewrite read_exp_ok by (try assumption; lia). f_equal. lia. }
    destruct He as [-> | ->]; (split; [reflexivity|exact RE]).
  - destruct (digits_cons d HD) as [c [r [Ed [Hc Hd]]]]. rewrite digits_value_vz in *. pose proof (vz_nonneg d 0 Hd ltac:(lia)).
    assert (RE : read_exp a x ("+" ++ d) = from_parts a (x + vz 0 d)).
    { unfold read_exp. cbn [append]. change (code "+" =? 45)%N with false. change (code "+" =? 43)%N with true. cbv iota beta. rewrite read_exp_ok by (try assumption; lia). f_equal. lia. }
    destruct He as [-> | ->]; (split; [reflexivity|exact RE]).
  - destruct (digits_cons d HD) as [c [r [Ed [Hc Hd]]]]. rewrite digits_value_vz in *. pose proof (vz_nonneg d 0 Hd ltac:(lia)).
    assert (RE : read_exp a x ("-" ++ d) = from_parts a (x + - vz 0 d)).
    { unfold read_exp. cbn [append]. change (code "-" =? 45)%N with true. cbv iota beta. rewrite read_exp_ok by (try assumption; lia). f_equal. unfold min_i32 in *. lia. }
    destruct He as [-> | ->]; (split; [reflexivity|exact RE]).
Qed.
Lemma exponent_nil : forall e n, exponent e n -> e = "" -> n = 0.
Proof. intros e n [|e' d [-> | ->] H|e' d [-> | ->] H|e' d [-> | ->] H] E; try discriminate E; reflexivity. Qed.
Lemma exponent_head : forall e n, exponent e n -> forall c r, e = String c r -> (code c =? 46)%N = false.
Proof. intros e n [|e' d [-> | ->] H|e' d [-> | ->] H|e' d [-> | ->] H] c r E; cbn [append] in E; try discriminate E; injection E as <- _; reflexivity. Qed.
Lemma exponent_size : forall e n, exponent e n -> 0 <= size e.
Proof. intros e n _. unfold size. lia. Qed.
(** A token of few digits is read as the number it stands for. *)
Lemma read64_ok : forall t neg s x, decimal t neg s x -> s <= max_u64 -> is64 (s * unit64) -> -22 <= x <= 22 -> size t < 2000000000 ->
  0 <= s /\ read64 t = Some (neg, round64 (dec_num s x) (dec_den x)).
Proof.
  intros t neg s x HD HS H64 HX HT. destruct HD as [neg i f fd e n HI HF HE]. destruct (int_part_cons i HI) as [c [r [Ei [Hc Hi]]]].
  rewrite digits_value_vz, vz_app in *. set (a := vz 0 i) in *. set (b := vz a fd) in *.
  assert (HFD : sall is_digit fd = true) by (destruct HF as [|d HD]; [reflexivity|]; destruct (digits_cons d HD) as [_ [_ [_ [_ H]]]]; exact H).
  assert (HA : 0 <= a) by (apply vz_nonneg; [exact Hi|lia]). assert (HB : a <= b) by (apply vz_nonneg; assumption). split; [lia|].
  assert (HSZ : 0 <= size fd < 2000000000).
  { rewrite !size_app in HT. pose proof (exponent_size e n HE). assert (size fd <= size f) by (destruct HF; unfold size; cbn [append String.length]; lia).
    assert (0 <= size i) by (unfold size; lia). assert (0 <= size (if neg then "-" else "")) by (unfold size; lia). unfold size in *. lia. }
  assert (MU : b <= max_u64) by exact HS.
  destruct (read_tail_ok e n b (0 - size fd) HE) as [HEe HRT]; [unfold max_i32; lia|unfold min_i32, max_i32; lia|].
  replace (0 - size fd + n) with (n - size fd) in HRT by lia. rewrite from_parts_exact in HRT by (try assumption; lia).
  unfold read64. set (u := i ++ f ++ e).
  assert (SG : (match (if neg then "-" else "") ++ u with String c0 r0 => if (code c0 =? 45)%N then (true, r0) else (false, (if neg then "-" else "") ++ u) | "" => (false, (if neg then "-" else "") ++ u) end) = (neg, u)).
  { destruct neg; [reflexivity|]. unfold u. rewrite Ei. cbn [append]. destruct (digit_plain c Hc) as [P _]. now rewrite P. }
  rewrite SG. clear SG. unfold u.
  assert (ENDS : ends (f ++ e)) by (destruct HF; [exact HEe|reflexivity]).
  rewrite read_int_ok; [|exact Hi|lia|fold a; lia|exact ENDS]. fold a. destruct HF as [|d HDd].
  - cbn [append]. subst b. cbn [vz] in *. destruct e as [|c0 r0].
    + apply exponent_nil in HE; [|reflexivity]. subst n. cbn [Z.eqb]. change (size "") with 0. cbn [Z.sub Z.opp Z.add]. cbn [option_map].
      do 2 f_equal. unfold of_int, dec_num, dec_den. cbn [Z.leb Z.compare]. now rewrite Z.pow_0_r, Z.mul_1_r.
    + pose proof (exponent_head _ _ HE c0 r0 eq_refl) as P46.
      rewrite P46. change (0 - size "") with 0 in HRT. now rewrite HRT.
  - cbn [append]. change (code "." =? 46)%N with true. cbv iota beta. rewrite read_frac_ok by (try assumption; lia). fold b. now rewrite HRT.
Qed.

(** ** Printing *)

Lemma decimal_token : forall t, number_token t <-> exists neg s x, decimal t neg s x.
Proof.
  intros t. split.
  - intros [sg i f e Hsg HI HF HE]. assert (NEG : exists neg : bool, sg = if neg then "-" else "") by (destruct Hsg as [-> | ->]; [exists false|exists true]; reflexivity).
    destruct NEG as [neg ->]. exists neg. destruct HF as [|d HD], HE as [|e sg d' He Hs HD'].
    + exists (digits_value (i ++ "")), (0 - size ""). constructor; [assumption|constructor|constructor].
    + destruct Hs as [-> |[-> | ->]]; eexists _, _; (apply dc_intro; [assumption|apply fr_none|]).
      * apply (ex_plain e d'); assumption.
      * apply (ex_plus e d'); assumption.
      * apply (ex_minus e d'); assumption.
    + exists (digits_value (i ++ d)), (0 - size d). constructor; [assumption|now constructor|constructor].
    + destruct Hs as [-> |[-> | ->]]; eexists _, _; (apply dc_intro; [assumption|apply (fr_some d); assumption|]).
      * apply (ex_plain e d'); assumption.
      * apply (ex_plus e d'); assumption.
      * apply (ex_minus e d'); assumption.
  - intros [neg [s [x [neg' i f fd e n HI HF HE]]]]. apply nt_intro; [destruct neg'; auto|assumption| |].
    + destruct HF; constructor. assumption.
    + destruct HE as [|e d He HD|e d He HD|e d He HD]; [constructor|apply (xp_some e "" d)|apply (xp_some e "+" d)|apply (xp_some e "-" d)]; auto.
Qed.

Lemma zeros_digits : forall n, sall is_digit (zeros n) = true.
Proof. induction n as [|n IH]; [reflexivity|]. cbn [zeros sall]. rewrite IH. reflexivity. Qed.
Lemma zeros_value : forall n a, vz a (zeros n) = a * 10 ^ Z.of_nat n.
Proof.
  induction n as [|n IH]; intros a; [cbn; lia|]. cbn [zeros vz]. rewrite IH. change (digit_val "0") with 0. rewrite Nat2Z.inj_succ, Z.pow_succ_r by lia. ring.
Qed.
Lemma zeros_size : forall n, size (zeros n) = Z.of_nat n.
Proof. unfold size. induction n as [|n IH]; [reflexivity|]. cbn [zeros String.length]. lia. Qed.

(** Digits of a positive number. *)
Lemma dec_digits : forall n, 1 <= n -> exists c r, dec_of_N (Z.to_N n) = String c r /\ between "1" "9" c /\
  sall is_digit r = true /\ is_digit c = true /\ vz 0 (String c r) = n.
Proof.
  intros n H. pose proof (dec_of_N_digits (Z.to_N n)) as HD. pose proof (dec_of_N_form (Z.to_N n)) as HF. pose proof (dec_of_N_val (Z.to_N n)) as HV.
  destruct (dec_of_N (Z.to_N n)) as [|c r]; [discriminate|]. exists c, r. split; [reflexivity|]. pose proof HD as HD'. cbn [sall] in HD'. apply andb_true_iff in HD'. destruct HD' as [Hc Hr].
  pose proof (vz_dec_val (String c r) 0 HD) as HZ. rewrite HV, Z2N.id in HZ by lia. change (Z.of_N 0) with 0 in HZ.
  split; [|auto]. rewrite between_code. change (code "1") with 49%N. change (code "9") with 57%N.
  pose proof Hc as Hc'. unfold is_digit in Hc'. apply andb_true_iff in Hc'. rewrite !N.leb_le in Hc'.
  assert (code c <> 48%N); [|lia]. intros E. destruct r as [|c2 r].
  - cbn [vz] in HZ. unfold digit_val in HZ. rewrite E in HZ. cbn in HZ. lia.
  - cbn [no_leading_zero] in HF. rewrite E in HF. rewrite andb_false_r in HF. discriminate.
Qed.
Lemma digits_intro : forall c r, is_digit c = true -> sall is_digit r = true -> digits (String c r).
Proof. intros c r Hc Hr. split; [discriminate|]. apply sall_digits. cbn [sall]. now rewrite Hc, Hr. Qed.
Lemma dec_of_Z_exponent : forall z, exponent ("e" ++ dec_of_Z z) z.
Proof.
  intros z. unfold dec_of_Z. destruct (Z.ltb_spec z 0) as [C|C].
  - destruct (dec_digits (- z) ltac:(lia)) as [c [r [E [_ [Hr [Hc V]]]]]]. rewrite E. rewrite <- (Z.opp_involutive z) at 1. rewrite <- V, <- digits_value_vz.
    apply ex_minus; [now left|now apply digits_intro].
  - destruct (Z.eq_dec z 0) as [->|N].
    + change (exponent ("e" ++ "0") (digits_value "0")). apply ex_plain; [now left|now apply digits_intro].
    + destruct (dec_digits z ltac:(lia)) as [c [r [E [_ [Hr [Hc V]]]]]]. rewrite E. rewrite <- V at 1. rewrite <- digits_value_vz.
      apply ex_plain; [now left|now apply digits_intro].
Qed.
Lemma sall_take : forall n s, sall is_digit s = true -> sall is_digit (take n s) = true /\ sall is_digit (drop n s) = true.
Proof. intros n s H. rewrite <- (take_drop n s), sall_app in H. now apply andb_true_iff. Qed.

Lemma layout_decimal : forall n k, 1 <= n -> exists s x, decimal (layout n k) false s x /\ sall is_digit (layout n k) = false /\
  ((s = n /\ x = k) \/ (0 <= k /\ size (dec_of_N (Z.to_N n)) + k <= 16 /\ s = n * 10 ^ (k + 1) /\ x = -1)).
Proof.
  intros n k Hn. destruct (dec_digits n Hn) as [c [r [E [HB [Hr [Hc V]]]]]]. unfold layout. rewrite E. set (d := String c r) in *.
  assert (Hd : sall is_digit d = true) by (unfold d; cbn [sall]; now rewrite Hc, Hr). change (Z.of_nat (String.length d)) with (size d).
  assert (L1 : 1 <= size d) by (unfold size, d; cbn [String.length]; lia). cbv zeta.
  assert (NOD : forall a b, sall is_digit (a ++ "." ++ b) = false) by (intros a b; rewrite !sall_app; now rewrite andb_false_r).
  assert (NOE : forall a b, sall is_digit (a ++ "e" ++ b) = false) by (intros a b; rewrite !sall_app; now rewrite andb_false_r).
  destruct ((0 <=? k) && (size d + k <=? 16))%bool eqn:C1.
  { apply andb_true_iff in C1. rewrite !Z.leb_le in C1. destruct C1 as [K0 K16]. set (z := zeros (Z.to_nat k)).
    exists (digits_value ((d ++ z) ++ "0")), (0 - size "0"). split; [|split].
    - replace (d ++ z ++ ".0") with ("" ++ (d ++ z) ++ ("." ++ "0") ++ "") by (cbn [append]; now rewrite sapp_assoc). apply (dc_intro false).
      + unfold d. cbn [append]. apply ip_other; [exact HB|]. apply sall_digits. rewrite sall_app, Hr. apply zeros_digits.
      + apply fr_some. now apply digits_intro.
      + apply ex_none.
    - rewrite !sall_app, andb_false_iff. right. rewrite andb_false_r. reflexivity.
    - right. split; [exact K0|]. split; [exact K16|]. split; [|reflexivity]. rewrite digits_value_vz, !vz_app. rewrite V. unfold z. rewrite zeros_value. cbn [vz]. change (digit_val "0") with 0.
      rewrite Z2Nat.id by lia. rewrite Z.pow_add_r by lia. change (10 ^ 1) with 10. ring. }
  destruct ((0 <? size d + k) && (size d + k <=? 16))%bool eqn:C2.
  { apply andb_true_iff in C2. rewrite Z.ltb_lt, Z.leb_le in C2. destruct C2 as [K0 K16].
    assert (KN : k < 0). { apply andb_false_iff in C1. rewrite !Z.leb_gt in C1. lia. }
    set (j := Z.to_nat (size d + k)). exists (digits_value (take j d ++ drop j d)), (0 - size (drop j d)). destruct (sall_take j d Hd) as [HT HP].
    assert (LD : size (drop j d) = - k). { unfold size. rewrite drop_length. unfold j. fold (size d). unfold size in *. lia. } split; [|split].
    - replace (take j d ++ "." ++ drop j d) with ("" ++ take j d ++ ("." ++ drop j d) ++ "") by (cbn [append]; now rewrite sapp_nil_r). apply (dc_intro false).
      + destruct j as [|j'] eqn:J; [unfold j in J; lia|]. unfold d in HT |- *. cbn [take] in HT |- *. apply ip_other; [exact HB|]. cbn [sall] in HT. apply andb_true_iff in HT. now apply sall_digits.
      + apply fr_some. split; [|now apply sall_digits]. intros G. rewrite G in LD. change (size "") with 0 in LD. lia.
      + apply ex_none.
    - apply NOD.
    - left. rewrite take_drop, digits_value_vz, V, LD. split; [reflexivity|lia]. }
  destruct ((-5 <? size d + k) && (size d + k <=? 0))%bool eqn:C3.
  { apply andb_true_iff in C3. rewrite Z.ltb_lt, Z.leb_le in C3. destruct C3 as [K0 K16]. set (z := zeros (Z.to_nat (- (size d + k)))).
    exists (digits_value ("0" ++ (z ++ d))), (0 - size (z ++ d)). split; [|split].
    - replace ("0." ++ z ++ d) with ("" ++ "0" ++ ("." ++ (z ++ d)) ++ "") by (cbn [append]; now rewrite sapp_nil_r). apply (dc_intro false).
      + apply ip_zero.
      + apply fr_some. split; [|apply sall_digits; rewrite sall_app, Hd; unfold z; now rewrite zeros_digits]. unfold d. intros G. destruct z; discriminate G.
      + apply ex_none.
    - cbn [append]. apply (NOD "0").
    - left. rewrite digits_value_vz, !vz_app, size_app. change (vz 0 "0") with 0. unfold z. rewrite zeros_value, zeros_size, Z.mul_0_l, V. split; [reflexivity|]. lia. }
  destruct (Z.eqb_spec (size d) 1) as [C4|C4].
  { exists (digits_value (d ++ "")), ((size d + k - 1) - size ""). split; [|split].
    - replace (d ++ "e" ++ dec_of_Z (size d + k - 1)) with ("" ++ d ++ "" ++ ("e" ++ dec_of_Z (size d + k - 1))) by reflexivity. apply (dc_intro false).
      + apply ip_other; [exact HB|now apply sall_digits].
      + apply fr_none.
      + apply dec_of_Z_exponent.
    - apply NOE.
    - left. rewrite sapp_nil_r, digits_value_vz, V. change (size "") with 0. split; [reflexivity|]. lia. }
  exists (digits_value (take 1 d ++ drop 1 d)), ((size d + k - 1) - size (drop 1 d)). split; [|split].
  - replace (take 1 d ++ "." ++ drop 1 d ++ "e" ++ dec_of_Z (size d + k - 1)) with ("" ++ take 1 d ++ ("." ++ drop 1 d) ++ ("e" ++ dec_of_Z (size d + k - 1))) by reflexivity. apply (dc_intro false).
    + unfold d. cbn [take]. apply ip_other; [exact HB|]. now apply sall_digits.
    + apply fr_some. unfold d. cbn [drop]. split; [|now apply sall_digits]. intros ->. apply C4. reflexivity.
    + apply dec_of_Z_exponent.
  - apply NOD.
  - left. rewrite take_drop, digits_value_vz, V. split; [reflexivity|]. unfold size, d. cbn [drop String.length]. lia.
Qed.
