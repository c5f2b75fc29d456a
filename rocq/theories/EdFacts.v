(** Signatures of Ed25519. *)

From Coq Require Import Ascii String ZArith Znumtheory NArith List Bool Lia Ring Field.
From Verif Require Import Bytes BytesFacts JsonFacts PrimeFacts Sha512 Curve CurveField Edwards CurveFacts Ed25519 EdOrder EdPoint.
Local Open Scope string_scope.
Local Opaque fadd fsub fmul fpow finv p25519 l25519 sqrt_m1 edwards_d sha512 clamp ext_base.

(** ** Multiples of the base point *)

Lemma l_pos : (1 < l25519)%Z.
Proof. reflexivity. Qed.
Lemma l_bound : (l25519 < 2 ^ 253)%Z.
Proof. reflexivity. Qed.
Lemma popp_padd : forall P Q, popp (padd P Q) = padd (popp P) (popp Q).
Proof.
  intros [x1 y1] [x2 y2]. unfold popp. cbn [padd fst snd]. replace (ed * - x1 * - x2 * y1 * y2)%F with (ed * x1 * x2 * y1 * y2)%F by ring.
  f_equal; [|f_equal; ring]. Local Transparent Fdiv. unfold Fdiv. Local Opaque Fdiv. ring.
Qed.
Lemma pmul_popp : forall n P, pmul n (popp P) = popp (pmul n P).
Proof.
  induction n as [|n IH]; intros P; cbn [pmul]; [|now rewrite IH, popp_padd].
  unfold popp, pzero. cbn [fst snd]. f_equal. ring.
Qed.
Lemma popp_popp : forall P, popp (popp P) = P.
Proof. intros [x y]. unfold popp. cbn [fst snd]. f_equal. ring. Qed.
Lemma padd_cancel : forall P Q R, on P -> on Q -> on R -> padd P R = padd Q R -> P = Q.
Proof.
  intros P Q R HP HQ HR H. rewrite <- (padd_zero_r P), <- (padd_zero_r Q), <- (padd_opp R HR).
  rewrite <- !padd_assoc by (try assumption; now apply on_popp). now rewrite H.
Qed.
Lemma padd_zero_l : forall P, padd pzero P = P.
Proof. intros P. rewrite padd_comm. apply padd_zero_r. Qed.
Lemma base_nz : base <> pzero.
Proof.
  intros H. apply (f_equal fst) in H. unfold base, pzero in H. cbn [fst] in H. rewrite F0_def in H. apply inj_eq in H.
  apply cong_mod_eq in H; [|reflexivity]. vm_compute in H. discriminate H.
Qed.
Lemma base_mul_order : forall q, pmul (Z.to_nat l25519 * q) base = pzero.
Proof.
  intros q. rewrite Nat.mul_comm, <- pmul_pmul by exact on_base. rewrite order_base. apply pmul_zero.
Qed.
Lemma base_mod : forall n, (0 <= n)%Z -> pmul (Z.to_nat (n mod l25519)) base = pmul (Z.to_nat n) base.
Proof.
  intros n HN. pose proof l_pos as HL. pose proof (Z.div_mod n l25519 ltac:(lia)) as HD. pose proof (Z.mod_pos_bound n l25519 ltac:(lia)) as HM.
  assert (HQ : (0 <= n / l25519)%Z) by (apply Z.div_pos; lia).
  replace (Z.to_nat n) with (Z.to_nat l25519 * Z.to_nat (n / l25519) + Z.to_nat (n mod l25519))%nat.
  - rewrite pmul_add by exact on_base. rewrite base_mul_order, padd_zero_l. reflexivity.
  - rewrite <- Z2Nat.inj_mul, <- Z2Nat.inj_add by nia. now rewrite <- HD.
Qed.
Lemma base_order : forall c, (0 < c < l25519)%Z -> pmul (Z.to_nat c) base <> pzero.
Proof.
  intros c HC H. pose proof l_pos as HL. apply base_nz.
  assert (RP : rel_prime c l25519) by (apply rel_prime_sym; apply prime_rel_prime; [exact l_prime|]; apply not_divide_small; exact HC).
  destruct (rel_prime_bezout _ _ RP) as [u v HB].
  assert (HU : ((u mod l25519) * c mod l25519 = 1)%Z).
  { rewrite Zmult_mod_idemp_l. replace (u * c)%Z with (1 + (- v) * l25519)%Z by lia. rewrite Z.mod_add by lia. apply Z.mod_small. lia. }
  pose proof (Z.mod_pos_bound u l25519 ltac:(lia)) as HM.
  rewrite <- (padd_zero_l base). change (padd pzero base) with (pmul 1 base). change 1%nat with (Z.to_nat 1). rewrite <- HU.
  rewrite base_mod by nia. rewrite Z2Nat.inj_mul by lia. rewrite <- pmul_pmul by exact on_base. rewrite H. apply pmul_zero.
Qed.
Lemma base_inj : forall a b, (0 <= a < l25519)%Z -> (0 <= b < l25519)%Z -> pmul (Z.to_nat a) base = pmul (Z.to_nat b) base -> a = b.
Proof.
  assert (G : forall a b, (0 <= a <= b)%Z -> (b < l25519)%Z -> pmul (Z.to_nat a) base = pmul (Z.to_nat b) base -> a = b).
  { intros a b HA HB H. destruct (Z.eq_dec a b) as [E|E]; [exact E|]. exfalso. apply (base_order (b - a)%Z); [lia|].
    replace (Z.to_nat b) with (Z.to_nat (b - a) + Z.to_nat a)%nat in H by lia. rewrite pmul_add in H by exact on_base.
    rewrite <- (padd_zero_l (pmul (Z.to_nat a) base)) in H at 1. symmetry. eapply padd_cancel; [| | |exact H]; auto using on_pmul, on_base, on_pzero. }
  intros a b HA HB H. destruct (Z.le_ge_cases a b) as [C|C]; [apply G; auto; lia|]. symmetry. apply G; auto; lia.
Qed.

(** ** Reading keys *)

Definition reads (s : string) (A : point) : Prop := exists a, ed_decompress s = Some a /\ erep a A.
Lemma reads_text : forall P, on P -> reads (point_text P) P.
Proof. intros P H. exact (decompress_text P H). Qed.
Lemma reads_on : forall s A, reads s A -> on A.
Proof. intros s A [a [HA HE]]. destruct (decompress_sound s a HA) as [P [HP [HR _]]]. now rewrite (erep_unique a A P HE HR). Qed.
Lemma reads_iff : forall s A, reads s A <-> on A /\ snd A = inj (le_decode s mod 2 ^ 255) /\ sign_fits s A.
Proof.
  intros s A. split.
  - intros [a [HA HE]]. destruct (decompress_sound s a HA) as [P [HP [HR HY]]]. rewrite (erep_unique a A P HE HR). split; [exact HP|].
    split; [exact HY|]. exact (decompress_sign s a P HA HR).
  - intros [HO [HY HS]]. exact (decompress_reads s A HO HY HS).
Qed.
Lemma reads_unique : forall s A B, reads s A -> reads s B -> A = B.
Proof. intros s A B [a [HA HE]] [b [HB HF]]. rewrite HA in HB. injection HB as <-. eapply erep_unique; eassumption. Qed.
Lemma reads_some : forall s, (exists A, reads s A) <-> ed_decompress s <> None.
Proof.
  intros s. split.
  - intros [A [a [HA _]]]. rewrite HA. discriminate.
  - intros H. destruct (ed_decompress s) as [a|] eqn:E; [|now elim H]. destruct (decompress_sound s a E) as [P [_ [HR _]]]. exists P, a. now split.
Qed.

(** ** Strings *)

Lemma take_32 : forall a b, String.length a = 32%nat -> take 32 (a ++ b) = a.
Proof. intros a b H. rewrite <- H. apply take_app. Qed.
Lemma drop_32 : forall a b, String.length a = 32%nat -> drop 32 (a ++ b) = b.
Proof. intros a b H. rewrite <- H. apply drop_app. Qed.
Lemma le_decode_inj : forall a b, String.length a = String.length b -> le_decode a = le_decode b -> a = b.
Proof.
  induction a as [|c a IH]; intros [|e b] HL H; cbn [String.length] in HL; try discriminate; [reflexivity|].
  cbn [le_decode] in H. pose proof (code_lt c) as HC. pose proof (code_lt e) as HE. assert (C : code c = code e /\ le_decode a = le_decode b) by lia.
  destruct C as [C1 C2]. f_equal; [now apply code_inj|]. apply IH; [now injection HL|exact C2].
Qed.

(** ** Signatures *)

Definition ed_challenge (big_r pub msg : string) : Z := ed_scalar (sha512 (big_r ++ pub ++ msg)).
Lemma scalar_range : forall h, (0 <= ed_scalar h < l25519)%Z.
Proof. intros h. apply Z.mod_pos_bound. pose proof l_pos. lia. Qed.
Lemma l_encode : forall x, (le_decode (le_encode 32 (x mod l25519)) = x mod l25519)%Z.
Proof.
  intros x. apply le_decode_encode. pose proof (Z.mod_pos_bound x l25519 ltac:(reflexivity)) as HM. split; [apply HM|]. eapply Z.lt_trans; [apply HM|]. reflexivity.
Qed.
Lemma verify_unfold : forall key msg sg A, String.length key = 32%nat -> reads key A -> String.length sg = 64%nat ->
  ed_verify key msg sg =
  let s := le_decode (drop 32 sg) in
  if (s <? 2 ^ 253)%Z then
    Some (if (s <? l25519)%Z then
            String.eqb (point_text (padd (pmul (Z.to_nat (ed_challenge (take 32 sg) key msg)) (popp A)) (pmul (Z.to_nat s) base))) (take 32 sg)
          else false)
  else None.
Proof.
  intros key msg sg A HK HA HS. pose proof (reads_on _ _ HA) as HO. destruct HA as [a [HD HE]]. unfold ed_verify. rewrite HK, HD, HS. cbn [Nat.eqb]. cbv zeta.
  destruct (_ <? 2 ^ 253)%Z; [|reflexivity]. destruct (_ <? l25519)%Z; [|reflexivity]. do 2 f_equal.
  rewrite (compress_text _ (padd (pmul (Z.to_nat (ed_challenge (take 32 sg) key msg)) (popp A)) (pmul (Z.to_nat (le_decode (drop 32 sg))) base))); [reflexivity|].
  apply erep_add; try (apply on_pmul; [now apply on_popp || exact on_base]).
  - apply erep_mul; [now apply on_popp|]. now apply erep_neg.
  - apply erep_mul; [exact on_base|exact erep_base].
Qed.
Lemma verify_true : forall key msg sg, ed_verify key msg sg = Some true <->
  String.length key = 32%nat /\ String.length sg = 64%nat /\ (le_decode (drop 32 sg) < l25519)%Z /\
  exists A, reads key A /\
    point_text (padd (pmul (Z.to_nat (ed_challenge (take 32 sg) key msg)) (popp A)) (pmul (Z.to_nat (le_decode (drop 32 sg))) base)) = take 32 sg.
Proof.
  intros key msg sg. split.
  - intros H. assert (HK : String.length key = 32%nat).
    { unfold ed_verify in H. destruct (Nat.eqb (String.length key) 32) eqn:E; [now apply Nat.eqb_eq|discriminate]. }
    assert (HA : exists A, reads key A).
    { apply reads_some. intros C. unfold ed_verify in H. rewrite HK, C in H. discriminate. }
    destruct HA as [A HA]. assert (HS : String.length sg = 64%nat).
    { unfold ed_verify in H. rewrite HK in H. destruct HA as [a [HD _]]. rewrite HD in H. cbn [Nat.eqb] in H.
      destruct (Nat.eqb (String.length sg) 64) eqn:E; [now apply Nat.eqb_eq|discriminate]. }
    rewrite (verify_unfold _ _ _ A HK HA HS) in H. cbv zeta in H. destruct (_ <? 2 ^ 253)%Z; [|discriminate].
    destruct (_ <? l25519)%Z eqn:EL; [|discriminate]. apply Z.ltb_lt in EL. split; [exact HK|]. split; [exact HS|]. split; [exact EL|].
    exists A. split; [exact HA|]. apply String.eqb_eq. now injection H.
  - intros [HK [HS [HL [A [HA HR]]]]]. rewrite (verify_unfold _ _ _ A HK HA HS). cbv zeta. pose proof l_bound as HB.
    rewrite (proj2 (Z.ltb_lt (le_decode (drop 32 sg)) (2 ^ 253))) by lia. rewrite (proj2 (Z.ltb_lt _ _) HL). apply (f_equal Some). now apply String.eqb_eq.
Qed.
Lemma verify_none : forall key msg sg, ed_verify key msg sg = None <->
  String.length key <> 32%nat \/ (forall A, ~ reads key A) \/ String.length sg <> 64%nat \/ (2 ^ 253 <= le_decode (drop 32 sg))%Z.
Proof.
  intros key msg sg. destruct (Nat.eq_dec (String.length key) 32) as [HK|HK].
  2:{ split; [now left|]. intros _. unfold ed_verify. apply Nat.eqb_neq in HK. now rewrite HK. }
  destruct (ed_decompress key) as [a|] eqn:ED.
  2:{ split; intros _.
      - right. left. intros A HA. apply (proj1 (reads_some key)); [now exists A|exact ED].
      - unfold ed_verify. rewrite HK, ED. reflexivity. }
  destruct (decompress_sound key a ED) as [A [_ [HR _]]]. assert (HA : reads key A) by (exists a; now split).
  destruct (Nat.eq_dec (String.length sg) 64) as [HS|HS].
  2:{ split; [right; right; now left|]. intros _. unfold ed_verify. rewrite HK, ED. cbn [Nat.eqb]. apply Nat.eqb_neq in HS. now rewrite HS. }
  rewrite (verify_unfold _ _ _ A HK HA HS). cbv zeta. destruct (_ <? 2 ^ 253)%Z eqn:EL.
  - apply Z.ltb_lt in EL. split; [discriminate|]. intros [C|[C|[C|C]]]; [contradiction|now elim (C A)|contradiction|lia].
  - apply Z.ltb_ge in EL. split; [|reflexivity]. intros _. right. right. right. exact EL.
Qed.

(** Signature with the scalar [a] and the nonce [r], for the public text [pub]. *)
Definition ed_make (a r : Z) (pub msg : string) : string :=
  let big_r := ed_compress (ext_mul r ext_base) in
  big_r ++ le_encode 32 ((ed_challenge big_r pub msg * a + r) mod l25519).
Lemma compress_mul : forall r, ed_compress (ext_mul r ext_base) = point_text (pmul (Z.to_nat r) base).
Proof. intros r. apply compress_text. apply erep_mul; [exact on_base|exact erep_base]. Qed.
Lemma make_length : forall a r pub msg, String.length (ed_make a r pub msg) = 64%nat.
Proof.
  intros a r pub msg. unfold ed_make. cbv zeta. rewrite compress_mul, slength_app, point_text_length, le_encode_length. reflexivity.
Qed.
Lemma make_take : forall a r pub msg, take 32 (ed_make a r pub msg) = ed_compress (ext_mul r ext_base).
Proof. intros a r pub msg. unfold ed_make. cbv zeta. apply take_32. rewrite compress_mul. apply point_text_length. Qed.
Lemma make_drop : forall a r pub msg, le_decode (drop 32 (ed_make a r pub msg)) = ((ed_challenge (ed_compress (ext_mul r ext_base)) pub msg * a + r) mod l25519)%Z.
Proof.
  intros a r pub msg. unfold ed_make. cbv zeta. rewrite drop_32 by (rewrite compress_mul; apply point_text_length). apply l_encode.
Qed.
Lemma make_verifies : forall a r pub msg, (0 <= a)%Z -> (0 <= r)%Z -> String.length pub = 32%nat -> reads pub (pmul (Z.to_nat a) base) ->
  ed_verify pub msg (ed_make a r pub msg) = Some true.
Proof.
  intros a r pub msg HA HR HL HP. apply verify_true. split; [exact HL|]. split; [apply make_length|]. rewrite make_drop, make_take.
  set (k := ed_challenge (ed_compress (ext_mul r ext_base)) pub msg). assert (HK : (0 <= k)%Z) by apply scalar_range.
  split; [apply Z.mod_pos_bound; reflexivity|]. exists (pmul (Z.to_nat a) base). split; [exact HP|].
  rewrite base_mod by nia. rewrite compress_mul. apply (f_equal point_text). rewrite pmul_popp, pmul_pmul by exact on_base.
  rewrite Z2Nat.inj_add, Z2Nat.inj_mul by nia. rewrite pmul_add by exact on_base. clearbody k.
  rewrite <- padd_assoc by (try apply on_popp; apply on_pmul; exact on_base). rewrite (padd_comm (popp _)).
  rewrite padd_opp by (apply on_pmul; exact on_base). apply padd_zero_l.
Qed.
Lemma make_mod : forall a r pub msg, ed_make (a mod l25519) r pub msg = ed_make a r pub msg.
Proof.
  intros a r pub msg. unfold ed_make. cbv zeta. do 2 f_equal. set (k := ed_challenge _ _ _). clearbody k.
  rewrite <- (Zplus_mod_idemp_l (k * (a mod l25519))), Zmult_mod_idemp_r, Zplus_mod_idemp_l. reflexivity.
Qed.
Lemma secret_nonneg : forall seed, (0 <= ed_secret seed)%Z.
Proof. intros seed. unfold ed_secret. pose proof (clamp_range (take 32 (sha512 seed))). assert (0 <= 2 ^ 254)%Z by discriminate. lia. Qed.
Lemma public_text : forall seed, ed_public seed = point_text (pmul (Z.to_nat (ed_secret seed)) base).
Proof. intros seed. apply compress_mul. Qed.
Lemma public_length : forall seed, String.length (ed_public seed) = 32%nat.
Proof. intros seed. rewrite public_text. apply point_text_length. Qed.
Lemma public_reads : forall seed, reads (ed_public seed) (pmul (Z.to_nat (ed_secret seed)) base).
Proof. intros seed. rewrite public_text. apply reads_text. apply on_pmul. exact on_base. Qed.
Definition ed_nonce (seed msg : string) : Z := ed_scalar (sha512 (ed_prefix seed ++ msg)).
Lemma sign_is : forall seed pub msg A, String.length seed = 32%nat -> String.length pub = 32%nat -> reads pub A ->
  ed_sign (seed ++ pub) msg = Some (ed_make (ed_secret seed) (ed_nonce seed msg) pub msg).
Proof.
  intros seed pub msg A HS HP [a [HD _]]. unfold ed_sign. rewrite slength_app, HS, HP. cbn [Nat.eqb Nat.add]. cbv zeta.
  rewrite take_32, drop_32 by exact HS. rewrite HD. reflexivity.
Qed.
Lemma sign_some : forall key msg sg, ed_sign key msg = Some sg -> exists seed pub A, key = seed ++ pub /\ String.length seed = 32%nat /\
  String.length pub = 32%nat /\ reads pub A /\ sg = ed_make (ed_secret seed) (ed_nonce seed msg) pub msg.
Proof.
  intros key msg sg H. assert (HK : String.length key = 64%nat).
  { unfold ed_sign in H. destruct (Nat.eqb (String.length key) 64) eqn:E; [now apply Nat.eqb_eq|discriminate]. }
  assert (HD : ed_decompress (drop 32 key) <> None) by (intros C; unfold ed_sign in H; rewrite HK, C in H; discriminate).
  apply reads_some in HD. destruct HD as [A HA]. exists (take 32 key), (drop 32 key), A.
  assert (E : key = take 32 key ++ drop 32 key) by (symmetry; apply take_drop).
  assert (L1 : String.length (take 32 key) = 32%nat) by (apply take_length; rewrite HK; lia).
  assert (L2 : String.length (drop 32 key) = 32%nat) by (rewrite drop_length, HK; lia).
  split; [exact E|]. split; [exact L1|]. split; [exact L2|]. split; [exact HA|]. rewrite E in H at 1. rewrite (sign_is _ _ _ A L1 L2 HA) in H. now injection H.
Qed.
Lemma sign_verifies : forall seed msg sg, String.length seed = 32%nat -> ed_sign (seed ++ ed_public seed) msg = Some sg ->
  ed_verify (ed_public seed) msg sg = Some true.
Proof.
  intros seed msg sg HS H. rewrite (sign_is _ _ _ _ HS (public_length seed) (public_reads seed)) in H. injection H as <-.
  apply make_verifies; [apply secret_nonneg|apply scalar_range|apply public_length|apply public_reads].
Qed.
Lemma verify_second_unique : forall key msg big_r s t, String.length big_r = 32%nat -> ed_verify key msg (big_r ++ s) = Some true ->
  ed_verify key msg (big_r ++ t) = Some true -> s = t.
Proof.
  intros key msg big_r s t HL HS HT. apply verify_true in HS, HT. destruct HS as [_ [LS [BS [A [HA ES]]]]]. destruct HT as [_ [LT [BT [B [HB ET]]]]].
  rewrite <- (reads_unique _ _ _ HA HB) in ET. rewrite slength_app, HL in LS, LT. rewrite take_32, drop_32 in ES, ET by exact HL. rewrite drop_32 in BS, BT by exact HL.
  rewrite <- ET in ES at 2. apply le_decode_inj; [lia|]. pose proof (reads_on _ _ HA) as HO.
  apply point_text_inj in ES; try (apply on_padd; apply on_pmul; [now apply on_popp|exact on_base]).
  rewrite (padd_comm _ (pmul (Z.to_nat (le_decode s)) base)), (padd_comm _ (pmul (Z.to_nat (le_decode t)) base)) in ES.
  apply padd_cancel in ES; try (apply on_pmul; (exact on_base || now apply on_popp)). apply base_inj; [| |exact ES]; split; try assumption; apply le_decode_nonneg.
Qed.

(** ** One seed with two public texts *)

Definition leaked (msg pub1 sg1 pub2 sg2 : string) : Z :=
  ((le_decode (drop 32 sg1) - le_decode (drop 32 sg2)) *
   (ed_challenge (take 32 sg1) pub1 msg - ed_challenge (take 32 sg2) pub2 msg) ^ (l25519 - 2)) mod l25519.
Lemma two_publics : forall seed pub1 pub2 msg sg1 sg2, String.length seed = 32%nat ->
  ed_sign (seed ++ pub1) msg = Some sg1 -> ed_sign (seed ++ pub2) msg = Some sg2 -> take 32 sg1 = take 32 sg2 /\
  ((le_decode (drop 32 sg1) - le_decode (drop 32 sg2)) mod l25519 =
   (ed_challenge (take 32 sg1) pub1 msg - ed_challenge (take 32 sg2) pub2 msg) * ed_secret seed mod l25519)%Z.
Proof.
  intros seed pub1 pub2 msg sg1 sg2 HS H1 H2.
  assert (G : forall pub sg, ed_sign (seed ++ pub) msg = Some sg -> sg = ed_make (ed_secret seed) (ed_nonce seed msg) pub msg).
  { intros pub sg H. apply sign_some in H. destruct H as [seed' [pub' [A [E [L1 [L2 [HA HM]]]]]]]. subst sg.
    assert (E1 : take 32 (seed ++ pub) = take 32 (seed' ++ pub')) by now rewrite E. assert (E2 : drop 32 (seed ++ pub) = drop 32 (seed' ++ pub')) by now rewrite E.
    rewrite !take_32 in E1 by assumption. rewrite !drop_32 in E2 by assumption. now subst. }
  apply G in H1, H2. subst sg1 sg2. rewrite !make_take, !make_drop. split; [reflexivity|].
  set (k1 := ed_challenge _ pub1 msg). set (k2 := ed_challenge _ pub2 msg). rewrite <- Zminus_mod. apply f_equal2; [ring|reflexivity].
Qed.
Lemma leaked_is : forall seed pub1 pub2 msg sg1 sg2, String.length seed = 32%nat ->
  ed_sign (seed ++ pub1) msg = Some sg1 -> ed_sign (seed ++ pub2) msg = Some sg2 ->
  ed_challenge (take 32 sg1) pub1 msg <> ed_challenge (take 32 sg1) pub2 msg -> leaked msg pub1 sg1 pub2 sg2 = (ed_secret seed mod l25519)%Z.
Proof.
  intros seed pub1 pub2 msg sg1 sg2 HS H1 H2 HK. destruct (two_publics _ _ _ _ _ _ HS H1 H2) as [HT HD]. unfold leaked. rewrite <- HT in *.
  pose proof (scalar_range (sha512 (take 32 sg1 ++ pub1 ++ msg))) as R1. pose proof (scalar_range (sha512 (take 32 sg1 ++ pub2 ++ msg))) as R2.
  fold (ed_challenge (take 32 sg1) pub1 msg) in R1. fold (ed_challenge (take 32 sg1) pub2 msg) in R2.
  set (k1 := ed_challenge _ pub1 msg) in *. set (k2 := ed_challenge _ pub2 msg) in *. clearbody k1 k2. pose proof l_pos as HL.
  rewrite <- Zmult_mod_idemp_l, HD, Zmult_mod_idemp_l. set (a := ed_secret seed). clearbody a.
  replace ((k1 - k2) * a * (k1 - k2) ^ (l25519 - 2))%Z with ((k1 - k2) ^ (l25519 - 1) * a)%Z.
  - apply cong_mod_eq; [lia|]. replace a with (1 * a)%Z at 2 by ring. apply cong_mul; [|apply cong_refl]. apply fermat; [exact l_prime|].
    intros D. destruct (Z.lt_ge_cases k1 k2) as [C|C].
    + apply Z.divide_opp_r in D. revert D. apply not_divide_small. lia.
    + revert D. apply not_divide_small. lia.
  - replace (l25519 - 1)%Z with (1 + (l25519 - 2))%Z by ring. rewrite Z.pow_add_r, Z.pow_1_r by lia. ring.
Qed.
Lemma leaked_forges : forall seed pub1 pub2 msg sg1 sg2, String.length seed = 32%nat ->
  ed_sign (seed ++ pub1) msg = Some sg1 -> ed_sign (seed ++ pub2) msg = Some sg2 ->
  ed_challenge (take 32 sg1) pub1 msg <> ed_challenge (take 32 sg1) pub2 msg ->
  forall r other, (0 <= r)%Z -> ed_verify (ed_public seed) other (ed_make (leaked msg pub1 sg1 pub2 sg2) r (ed_public seed) other) = Some true.
Proof.
  intros seed pub1 pub2 msg sg1 sg2 HS H1 H2 HK r other HR. rewrite (leaked_is seed) by assumption. rewrite make_mod.
  apply make_verifies; [apply secret_nonneg|exact HR|apply public_length|apply public_reads].
Qed.

(** ** The neutral point as a key *)

Lemma text_zero : point_text pzero = le_encode 32 1.
Proof.
  unfold point_text, point_number, pzero. apply (f_equal (le_encode 32)). cbn [fst snd]. replace (im * 0)%F with F0 by ring.
  rewrite F0_def, F1_def. reflexivity.
Qed.
Lemma weak_verifies : forall key msg, String.length key = 32%nat -> reads key pzero -> ed_verify key msg (le_encode 32 1 ++ le_encode 32 0) = Some true.
Proof.
  intros key msg HL HR. apply verify_true. split; [exact HL|]. rewrite slength_app, !le_encode_length. split; [reflexivity|].
  rewrite take_32, drop_32 by apply le_encode_length. rewrite le_decode_encode by (split; reflexivity || discriminate). split; [reflexivity|].
  exists pzero. split; [exact HR|]. rewrite pmul_popp, pmul_zero. replace (popp pzero) with pzero by (unfold popp, pzero; cbn [fst snd]; f_equal; ring).
  replace (Z.to_nat 0) with 0%nat by reflexivity. cbn [pmul]. rewrite padd_zero_r. apply text_zero.
Qed.
Lemma point_text_is : forall P, point_text P = le_encode 32 (val (snd P) + 2 ^ 255 * (val (im * fst P)%F mod 2))%Z.
Proof. reflexivity. Qed.
Lemma make_is : forall a r pub msg, let big_r := point_text (pmul (Z.to_nat r) base) in
  ed_make a r pub msg = big_r ++ le_encode 32 ((le_decode (sha512 (big_r ++ pub ++ msg)) mod l25519 * a + r) mod l25519).
Proof. intros a r pub msg. cbv zeta. rewrite <- compress_mul. reflexivity. Qed.
Lemma verify_bool : forall key msg sg A, String.length key = 32%nat -> reads key A -> String.length sg = 64%nat -> (le_decode (drop 32 sg) < 2 ^ 253)%Z ->
  exists b, ed_verify key msg sg = Some b.
Proof.
  intros key msg sg A HK HA HS HB. destruct (ed_verify key msg sg) as [b|] eqn:E; [now exists b|]. apply verify_none in E.
  destruct E as [E|[E|[E|E]]]; [now elim E|now elim (E A)|now elim E|lia].
Qed.
Global Opaque ed_sign ed_verify ed_public ed_make ed_compress ed_decompress ext_mul point_text.
