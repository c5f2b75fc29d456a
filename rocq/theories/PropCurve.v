(** The key agreement of the crate: C69. *)

From Coq Require Import Ascii String Arith ZArith NArith Znumtheory List Bool Permutation Lia Ring.
From Verif Require Import Bytes BytesFacts Base64 Utf8 Json Value Types Serde SerdeFacts Message Attach ChaCha Sha256 Aead Envelope Spec SpecFacts SetterFacts SpecText CryptoLaws Examples
  SpecSign HeaderFacts SignFacts SignFacts2 PropSign SpecSeal SealFacts SealFacts2 SealFacts3 PropSeal KeyFacts PropKey AeadFacts AeadFacts2 PropAead Float PropFloat
  PrimeFacts Curve CurveField Edwards CurveFacts.
Import ListNotations.
Local Open Scope nat_scope.
Local Open Scope string_scope.

(** ** C69 *)

(** The points [(x, y)] with [121666 (x^2 + y^2 - 1) = 121665 x^2 y^2] modulo the prime 2^255 - 19 form a commutative group under the
    Edwards addition, whose denominators never vanish. *)
Theorem C69_prime : prime (2 ^ 255 - 19).
Proof. exact p_prime. Qed.
Theorem C69_curve : forall x y, on (inj x, inj y) <-> cong (2 ^ 255 - 19) (121666 * (x * x + y * y - 1))%Z (121665 * (x * x) * (y * y))%Z.
Proof.
  intros x y. unfold on, on_curve. cbn [fst snd]. rewrite <- (inj_eq (121666 * _) (121665 * _ * _)).
  rewrite !inj_mul, inj_sub, inj_add, !inj_mul. rewrite <- F1_def, <- ed_eq. split; intros H.
  - rewrite H. ring.
  - apply F_minus. apply (F_cancel (inj 121666)); [apply inj_small_nz; lia|].
    transitivity (Fsub (Fmul (inj 121666) (Fsub (Fadd (Fmul (inj x) (inj x)) (Fmul (inj y) (inj y))) F1)) (Fmul (Fmul (Fmul ed (inj 121666)) (Fmul (inj x) (inj x))) (Fmul (inj y) (inj y)))); [ring|].
    rewrite H. ring.
Qed.
Theorem C69_group : on pzero /\ (forall P, on P -> on (popp P)) /\ (forall P Q, on P -> on Q -> on (padd P Q)) /\
  (forall P Q, padd P Q = padd Q P) /\ (forall P, padd P pzero = P) /\ (forall P, on P -> padd P (popp P) = pzero) /\
  (forall P Q R, on P -> on Q -> on R -> padd (padd P Q) R = padd P (padd Q R)).
Proof.
  split; [exact on_pzero|]. split; [exact on_popp|]. split; [exact on_padd|]. split; [exact padd_comm|]. split; [exact padd_zero_r|].
  split; [exact padd_opp|exact padd_assoc].
Qed.
Theorem C69_denominators : forall P Q, on P -> on Q -> let t := Fmul (Fmul (Fmul (Fmul ed (fst P)) (fst Q)) (snd P)) (snd Q) in
  Fadd F1 t <> F0 /\ Fsub F1 t <> F0.
Proof. intros P Q HP HQ. split; [now apply complete_plus|now apply complete_minus]. Qed.
(** X25519 multiplies the point with the given coordinate [(1 + y) / (1 - y)] (0 for the neutral element) by the secret with some
    bits cleared or set; whatever the point and the secret. *)
Theorem C69_multiples : forall secret P, on P ->
  x25519 secret (le_encode 32 (val (ucoord P))) = le_encode 32 (val (ucoord (pmul (Z.to_nat (clamp secret)) P))).
Proof. exact x25519_point. Qed.
Theorem C69_public_key : exists P, on P /\ ucoord P = inj 9 /\
  forall secret, x25519_base secret = le_encode 32 (val (ucoord (pmul (Z.to_nat (clamp secret)) P))).
Proof. exists base. split; [exact on_base|]. split; [exact ucoord_base|exact x25519_base_point]. Qed.
(** The bits: number [clamp s] has bit 254 set, the three lowest bits and bits from 255 clear, and the other bits of [s]. *)
Theorem C69_clamp : forall s i, (0 <= i)%Z ->
  Z.testbit (clamp s) i = if (i <? 3)%Z then false else if (i <? 254)%Z then Z.testbit (le_decode s) i else (i =? 254)%Z.
Proof.
  intros s i HI. unfold clamp. cbv zeta. remember (le_decode s) as n eqn:EN. clear EN.
  assert (E : (n mod 2 ^ 254 - n mod 8 = (n / 8 mod 2 ^ 251) * 2 ^ 3)%Z).
  { replace (2 ^ 254)%Z with (8 * 2 ^ 251)%Z by reflexivity. rewrite Z.rem_mul_r by (try discriminate; reflexivity). change (2 ^ 3)%Z with 8%Z. ring. }
  rewrite E. assert (HB : (0 <= n / 8 mod 2 ^ 251 < 2 ^ 251)%Z) by (apply Z.mod_pos_bound; reflexivity).
  destruct (i <? 3)%Z eqn:L3.
  - apply Z.ltb_lt in L3. replace (2 ^ 254)%Z with (2 ^ 251 * 2 ^ 3)%Z by reflexivity. rewrite <- Z.mul_add_distr_r. apply Z.mul_pow2_bits_low. exact L3.
  - apply Z.ltb_ge in L3. replace (2 ^ 254)%Z with (1 * 2 ^ 251 * 2 ^ 3)%Z by reflexivity. rewrite <- Z.mul_add_distr_r. rewrite Z.mul_pow2_bits by lia.
    destruct (i <? 254)%Z eqn:L4.
    + apply Z.ltb_lt in L4. transitivity (Z.testbit ((n / 8 mod 2 ^ 251 + 1 * 2 ^ 251) mod 2 ^ 251) (i - 3)).
      * symmetry. apply Z.mod_pow2_bits_low. lia.
      * rewrite Z.mod_add by discriminate. rewrite Z.mod_mod by discriminate. rewrite Z.mod_pow2_bits_low by lia.
        change 8%Z with (2 ^ 3)%Z. rewrite Z.div_pow2_bits by lia. f_equal. lia.
    + apply Z.ltb_ge in L4. destruct (i =? 254)%Z eqn:L5.
      * apply Z.eqb_eq in L5. subst i. change (254 - 3)%Z with 251%Z. rewrite Z.testbit_true by lia.
        rewrite Z.div_add by discriminate. rewrite Z.div_small by exact HB. reflexivity.
      * apply Z.eqb_neq in L5. apply Z.bits_above_log2; [lia|]. apply Z.log2_lt_pow2; [lia|].
        apply Z.lt_le_trans with (2 ^ 252)%Z; [|apply Z.pow_le_mono_r; lia]. replace (2 ^ 252)%Z with (2 ^ 251 + 2 ^ 251)%Z by reflexivity. lia.
Qed.
(** Both sides compute the same 32 bytes, whatever the two secrets. *)
Theorem C69_agreement : forall a b, x25519 a (x25519_base b) = x25519 b (x25519_base a) /\ String.length (x25519 a (x25519_base b)) = 32 /\ String.length (x25519_base a) = 32.
Proof. intros a b. split; [apply x25519_comm|]. split; [apply x25519_length|apply x25519_base_length]. Qed.

(** *** Other keys *)

(** The highest bit of a public key is ignored, and so are multiples of the modulus. *)
Theorem C69_same_point : forall secret p p', cong (2 ^ 255 - 19) (le_decode p mod 2 ^ 255) (le_decode p' mod 2 ^ 255) -> x25519 secret p = x25519 secret p'.
Proof. intros k p p' H. assert (E : decode_u p = decode_u p') by (apply cong_mod_eq; [reflexivity|exact H]). rewrite !x25519_def, E. reflexivity. Qed.
(** Keys of low order: the shared secret is the same for all secrets. *)
Definition low_order (p : string) : Prop := exists P, on P /\ pmul 8 P = pzero /\ decode_u p = val (ucoord P).
Theorem C69_low_order : forall secret p, low_order p -> x25519 secret p = le_encode 32 0.
Proof.
  intros k p (P & HP & H8 & HU). rewrite x25519_def, HU. apply (f_equal (le_encode 32)). pose proof (clamp_range k) as HR. assert (H254 : (0 <= 2 ^ 254)%Z) by discriminate.
  rewrite scalar_mult_even; [|lia|apply clamp_even|exact HP].
  assert (E : exists n, Z.to_nat (clamp k) = (n * 8)%nat).
  { exists (Z.to_nat (clamp k / 8)). change 8 with (Z.to_nat 8). rewrite <- Z2Nat.inj_mul; [|apply Z.div_pos; lia|lia]. f_equal.
    pose proof (Z.div_mod (clamp k) 8) as HD. rewrite clamp_eight in HD. lia. }
  destruct E as [n ->]. rewrite <- pmul_pmul by exact HP. rewrite H8, pmul_zero, ucoord_pzero. rewrite F0_def. reflexivity.
Qed.
Lemma order_two : padd (F0, Fopp F1) (F0, Fopp F1) = pzero.
Proof. apply ucoord_zero; [unfold on, on_curve; cbn [fst snd]; ring|]. unfold ucoord. cbn [snd]. ring. Qed.
Lemma order_four : padd (F1, F0) (F1, F0) = (F0, Fopp F1).
Proof.
  cbn [padd]. replace (Fadd F1 (Fmul (Fmul (Fmul (Fmul ed F1) F1) F0) F0)) with F1 by ring. replace (Fsub F1 (Fmul (Fmul (Fmul (Fmul ed F1) F1) F0) F0)) with F1 by ring.
  rewrite !F_div_one. f_equal; ring.
Qed.
Example C69_example_low_order : low_order (le_encode 32 0) /\ low_order (le_encode 32 1) /\ low_order (le_encode 32 (2 ^ 255 - 19)) /\ low_order (le_encode 32 (2 ^ 255 + 1)).
Proof.
  assert (Z : forall p, decode_u p = 0%Z -> low_order p).
  { intros p H. exists pzero. split; [exact on_pzero|]. split; [apply pmul_zero|]. rewrite ucoord_pzero, H, F0_def. reflexivity. }
  assert (O : forall p, decode_u p = 1%Z -> low_order p).
  { intros p H. exists (F1, F0). assert (HO : on (F1, F0)) by (unfold on, on_curve; cbn [fst snd]; ring). split; [exact HO|]. split.
    - change 8 with (2 * (2 * 2)). rewrite <- !pmul_pmul by auto using on_pmul. assert (D : forall P, pmul 2 P = padd P P) by (intros P; cbn [pmul]; now rewrite (padd_comm pzero P), padd_zero_r).
      rewrite !D, order_four, order_two. apply padd_zero_r.
    - rewrite H. unfold ucoord. cbn [snd]. replace (Fmul (Fadd F1 F0) (Finv (Fsub F1 F0))) with F1.
      + rewrite F1_def. reflexivity.
      + replace (Fsub F1 F0) with F1 by ring. replace (Finv F1) with F1; [ring|]. rewrite <- (Finv_l F1 F_one_zero) at 1. ring. }
  split; [apply Z; vm_compute; reflexivity|]. split; [apply O; vm_compute; reflexivity|].
  split; [apply Z; vm_compute; reflexivity|apply O; vm_compute; reflexivity].
Qed.
(** [receive] does not reject such keys (src/messages/helpers/receive.rs:84-85, src/messages/helpers/encryption.rs:51-55): if the
    sender key and the ephemeral keys of an envelope have low order, every secret opens it like every other one. *)
Lemma kek_low : forall E did sk sk' ze alg pk, x_dh E = x25519 -> 32 <= String.length sk -> 32 <= String.length sk' ->
  (forall key, known_key E did pk key -> low_order (take 32 key)) -> generate_kek E did sk ze alg pk = generate_kek E did sk' ze alg pk.
Proof.
  intros E did sk sk' ze alg pk HX L L' HK. unfold generate_kek, shared_for, arr32.
  assert (L1 : (String.length sk <? 32)%nat = false) by now apply Nat.ltb_ge. assert (L2 : (String.length sk' <? 32)%nat = false) by now apply Nat.ltb_ge.
  rewrite L1, L2, HX. cbn [rbind]. unfold known_key in HK. destruct pk as [k|].
  - cbn [rbind]. destruct (String.length k <? 32)%nat; [reflexivity|]. cbn [rbind]. rewrite !C69_low_order by (apply HK; now left). reflexivity.
  - destruct (resolve E did) as [doc|]; [|reflexivity]. cbn [oerr rbind]. destruct (doc_key doc "X25519") as [k|] eqn:EK; [|reflexivity]. cbn [oerr rbind].
    destruct (String.length k <? 32)%nat; [reflexivity|]. cbn [rbind]. rewrite !C69_low_order by (apply HK; right; split; [reflexivity|]; exists doc; split; [reflexivity|exact EK]). reflexivity.
Qed.
Definition low_entry (r : recipient) : Prop :=
  forall ek epub, jk_epk (rc_header r) = Some ek -> b64_decode (ep_x ek) = Some epub -> low_order epub.
Lemma cek_low : forall E e sk sk' r pk, x_dh E = x25519 -> 32 <= String.length sk -> 32 <= String.length sk' ->
  (forall skid key, jwe_get e jh_skid = Some skid -> known_key E skid pk key -> low_order (take 32 key)) -> low_entry r ->
  decrypt_cek E e sk r pk = decrypt_cek E e sk' r pk.
Proof.
  intros E e sk sk' r pk HX L L' HK HR. unfold decrypt_cek. destruct (jwe_get e jh_alg) as [alg|]; [|reflexivity]. cbn [oerr rbind].
  destruct (jwe_get e jh_skid) as [skid|]; [|reflexivity]. cbn [oerr rbind]. destruct (jk_epk (rc_header r)) as [ek|] eqn:E1; [|reflexivity]. cbn [oerr rbind].
  destruct (b64_decode (ep_x ek)) as [epub|] eqn:E2; [|reflexivity]. cbn [oerr rbind]. destruct (negb (String.length epub =? 32)%nat); [reflexivity|].
  unfold arr32. assert (L1 : (String.length sk <? 32)%nat = false) by now apply Nat.ltb_ge. assert (L2 : (String.length sk' <? 32)%nat = false) by now apply Nat.ltb_ge.
  rewrite L1, L2, HX. cbn [rbind]. rewrite !C69_low_order by exact (HR ek epub E1 E2).
  rewrite (kek_low E skid sk sk' (le_encode 32 0) alg pk HX L L' (fun key => HK skid key eq_refl)). reflexivity.
Qed.
Theorem C69_low_order_receive : forall E text e e2 sk sk' spk gpk, x_dh E = x25519 -> decodes E text e e2 ->
  32 <= String.length sk -> 32 <= String.length sk' ->
  (forall key, sender_key_of E e spk key -> low_order (take 32 key)) ->
  (forall l r, jwe_recipients e = Some l -> In r l -> low_entry r) ->
  receive E text (Some sk) spk gpk = receive E text (Some sk') spk gpk.
Proof.
  intros E text e e2 sk sk' spk gpk HX [HT [HJ _]] L L' HS HR. unfold receive. rewrite HT. cbn [rbind is_jwe_type oerr].
  assert (EQ : receive_jwe E text sk spk = receive_jwe E text sk' spk); [|now rewrite EQ].
  unfold receive_jwe. rewrite HJ. cbn [oerr rbind]. destruct (jwe_get e jh_alg) as [alg|]; [|reflexivity]. cbn [oerr rbind].
  assert (L1 : (String.length sk <? 32)%nat = false) by now apply Nat.ltb_ge. assert (L2 : (String.length sk' <? 32)%nat = false) by now apply Nat.ltb_ge.
  assert (CEK : forall l acc, (forall r, In r l -> low_entry r) -> find_cek E e sk spk acc l = find_cek E e sk' spk acc l).
  { induction l as [|r l IH]; intros acc HL; [reflexivity|]. cbn [find_cek].
    rewrite (cek_low E e sk sk' r spk HX L L'); [|intros skid key G1 G2; apply HS; unfold sender_key_of; destruct G2 as [G2|[G2 [doc G3]]]; [now left|right; split; [exact G2|]; exists skid, doc; split; [exact G1|exact G3]]|apply HL; now left].
    destruct (decrypt_cek E e sk' r spk); try reflexivity. apply IH. intros x HI. apply HL. now right. }
  assert (GO : forall k, low_order (take 32 k) ->
    (let? s := arr32 sk in let? p := arr32 k in let? a := crypto_alg_of alg in
     let? m := match jwe_recipients e with
               | Some l => let? key := cek_error (find_cek E e sk spk (Err (EGeneric "no recipients found in JWE")) l) in decrypt (rt E 2) (rt E 3) text (decrypter E a) key
               | None => decrypt (rt E 2) (rt E 3) text (decrypter E a) (x_dh E s p) end in Ok (message_json m)) =
    (let? s := arr32 sk' in let? p := arr32 k in let? a := crypto_alg_of alg in
     let? m := match jwe_recipients e with
               | Some l => let? key := cek_error (find_cek E e sk' spk (Err (EGeneric "no recipients found in JWE")) l) in decrypt (rt E 2) (rt E 3) text (decrypter E a) key
               | None => decrypt (rt E 2) (rt E 3) text (decrypter E a) (x_dh E s p) end in Ok (message_json m))).
  { intros k HL. unfold arr32. rewrite L1, L2. cbn [rbind]. destruct (String.length k <? 32)%nat; [reflexivity|]. cbn [rbind]. rewrite HX. rewrite !C69_low_order by exact HL.
    destruct (crypto_alg_of alg); try reflexivity. cbn [rbind]. destruct (jwe_recipients e) as [l|]; [|reflexivity]. rewrite (CEK l); [reflexivity|]. intros r HI. now apply (HR l r). }
  destruct spk as [k|].
  - cbn [rbind]. exact (GO k (HS k (or_introl eq_refl))).
  - destruct (jwe_get e jh_skid) as [skid|] eqn:E1; [|reflexivity]. cbn [oerr rbind]. destruct (resolve E skid) as [doc|] eqn:E3; [|reflexivity]. cbn [oerr rbind].
    destruct (doc_key doc "X25519") as [k|] eqn:E4; [|reflexivity]. cbn [oerr rbind]. apply (GO k). apply HS. right. split; [reflexivity|].
    exists skid, doc. split; [exact E1|]. split; assumption.
Qed.

(** *** The envelopes, with nothing about cryptography assumed *)

(** [E] with X25519. *)
Definition curve (E : env) : env := {|
  x_pub := x25519_base; x_dh := x25519; xc_enc := xc_enc E; xc_dec := xc_dec E; gcm_enc := gcm_enc E; gcm_dec := gcm_dec E;
  cbc_enc := cbc_enc E; sig_sign := sig_sign E; sig_verify := sig_verify E; resolve := resolve E; fl := fl E; ho := ho E |}.
Lemma curve_dh : forall E, dh_ok (curve E).
Proof. intros E. split; [intros s _; apply x25519_base_length|intros a b _ _; apply x25519_comm]. Qed.
(** [E] with X25519, both ciphers and the numbers of serde_json. Left open are signatures, which documents resolve, and the orders
    of hash maps. *)
Definition whole (E : env) : env := ciphers (real (curve E)).
Definition orders_ok (E : env) : Prop := forall k V (l : list (string * V)), Permutation (ho E k V l) l.
Lemma whole_real : forall E, orders_ok E -> env_ok (real (curve E)).
Proof. intros E H. apply C55_env; [reflexivity|exact H]. Qed.
Lemma whole_dh : forall E, dh_ok (real (curve E)).
Proof. intros E. destruct (curve_dh E) as [H1 H2]. split; [exact H1|exact H2]. Qed.
Theorem C69_lawful : forall E, orders_ok E -> env_ok (whole E) /\ crypto_ok (whole E).
Proof. intros E H. split; [apply ciphers_env; now apply whole_real|apply ciphers_ok; apply whole_dh]. Qed.
Theorem C69_seal_total : forall E rnd m sk keys alg a, rand_ok rnd ->
  jh_alg (m_jwm m) = Some alg -> In (alg, a) wrap_table -> String.length sk = 32 -> dh_to (m_did m) <> [] ->
  (m_flat_jwe m = true -> List.length (dh_to (m_did m)) = 1) -> (forall l, keys = Some l -> List.length l = List.length (dh_to (m_did m))) ->
  (forall k dest, nth_error (dh_to (m_did m)) k = Some dest -> exists key, known_key E dest (given_key keys k) key /\ 32 <= String.length key) ->
  (len64 (message_json m) <= 2 ^ 26)%N ->
  exists text, seal (whole E) rnd m sk keys = Ok text.
Proof. intros E rnd m sk keys alg a. exact (C68_seal_total (real (curve E)) rnd m sk keys alg a (whole_dh E)). Qed.
(** Public keys are those X25519 computes. [others_closed] is void for the first recipient. *)
Theorem C69_seal_receive : forall E rnd m sk keys text i dest rsk sender signing from,
  orders_ok E -> rand_ok rnd -> sendable (whole E) m -> few_custom (m_jwm m) -> avoids envelope_names (dh_other (m_did m)) ->
  jh_typ (m_jwm m) <> DidCommJws -> dh_from (m_did m) = Some from ->
  seal (whole E) rnd m sk keys = Ok text -> nth_error (dh_to (m_did m)) i = Some dest -> String.length rsk = 32 ->
  known_key E dest (given_key keys i) (x25519_base rsk) -> known_key E from sender (x25519_base sk) -> i = 0 \/ others_closed (whole E) rnd m sk keys rsk i ->
  exists m', receive (whole E) text (Some rsk) sender signing = Ok m' /\ received m m'.
Proof.
  intros E rnd m sk keys text i dest rsk sender signing from HO HR HS HF HA HT HFr HSe HN HL HK HSK HB.
  assert (HB' : others_closed (whole E) rnd m sk keys rsk i) by (destruct HB as [->|HB]; [apply closed_first|exact HB]).
  exact (C68_seal_receive (real (curve E)) rnd m sk keys text i dest rsk sender signing from (whole_real E HO) (whole_dh E) HR HS HF HA HT HFr HSe HN HL HK HSK HB').
Qed.
(** Somebody without any secret makes an envelope without entries under the 32 zero bytes; if the public key of its sender has low
    order, everybody opens it, with every secret. *)
Theorem C69_public_envelope : forall E a iv m key rsk spk gpk from text, orders_ok E -> sendable (whole E) m -> few_custom (m_jwm m) ->
  avoids envelope_names (dh_other (m_did m)) -> jh_typ (m_jwm m) <> DidCommJws -> jh_alg (m_jwm m) = Some (wrap_name a) -> usable a ->
  m_recipients m = None -> m_flat_jwe m = false -> dh_from (m_did m) = Some from -> known_key E from spk key -> 32 <= String.length key -> low_order (take 32 key) ->
  32 <= String.length rsk -> encrypt iv m (encryptor (whole E) a) (le_encode 32 0) = Ok text ->
  exists m', receive (whole E) text (Some rsk) spk gpk = Ok m' /\ same_message m m'.
Proof.
  intros E a iv m key rsk spk gpk from text HO HS HF HA HTy HAl HU HR HFl HFr HK LK LO LR HEn. destruct (C69_lawful E HO) as [HE HC].
  exists (re_message (rt (whole E) 9) (re_message (rt (whole E) 3) m)). split.
  - apply (static_round_key (whole E) a iv m key rsk spk gpk from text); auto. change (x_dh (whole E)) with x25519. now rewrite C69_low_order.
  - eapply same_message_trans; apply re_message_same; exact HE.
Qed.

(** ** Cases *)

Definition ex_public : list (option string) := [Some (x25519_base bob_key); Some (x25519_base carol_key)].
Lemma ex_jwe_whole : forall a, sendable (whole toy) (ex_jwe a).
Proof.
  intros a. destruct (ex_jwe_sendable a) as [S1 S2 S3 S4 S5 S6 S7]. constructor; [exact S1|exact S2|exact S3|exact S4|exact S5|exact S6|].
  destruct a; change (stable (rt (whole toy) 0) ex_body); unfold ex_body; stable_val.
Qed.
Example C69_example : forall a, In a [XC20P; A256GCM] -> exists text m', seal (whole toy) ex_rand (ex_jwe a) alice_key (Some ex_public) = Ok text /\
  receive (whole toy) text (Some bob_key) (Some (x25519_base alice_key)) None = Ok m' /\ received (ex_jwe a) m'.
Proof.
  intros a HA.
  assert (HT : exists text, seal (whole toy) ex_rand (ex_jwe a) alice_key (Some ex_public) = Ok text).
  { apply (C69_seal_total toy ex_rand (ex_jwe a) alice_key (Some ex_public) (wrap_name a) a).
    - exact ex_rand_ok.
    - destruct HA as [<-|[<-|[]]]; reflexivity.
    - apply crypto_alg_of_table, crypto_alg_of_ok. split; [|reflexivity]. intros ->. destruct HA as [H|[H|[]]]; discriminate.
    - apply srepeat_length.
    - destruct HA as [<-|[<-|[]]]; discriminate.
    - destruct HA as [<-|[<-|[]]]; discriminate.
    - intros l H. apply some_inj in H. subst l. destruct HA as [<-|[<-|[]]]; reflexivity.
    - intros [|[|k]] dest H.
      + exists (x25519_base bob_key). split; [now left|]. rewrite x25519_base_length. lia.
      + exists (x25519_base carol_key). split; [now left|]. rewrite x25519_base_length. lia.
      + exfalso. destruct HA as [<-|[<-|[]]]; destruct k; discriminate H.
    - destruct HA as [<-|[<-|[]]]; vm_compute; discriminate. }
  destruct HT as [text HT]. exists text.
  destruct (C69_seal_receive toy ex_rand (ex_jwe a) alice_key (Some ex_public) text 0 "did:toy:bob" bob_key (Some (x25519_base alice_key)) None "did:toy:alice") as [m' [H1 H2]].
  - exact (eo_order toy toy_env).
  - exact ex_rand_ok.
  - apply ex_jwe_whole.
  - apply ex_jwe_few.
  - exact ex_one_avoids.
  - apply ex_jwe_typ.
  - destruct HA as [<-|[<-|[]]]; reflexivity.
  - exact HT.
  - destruct HA as [<-|[<-|[]]]; reflexivity.
  - apply srepeat_length.
  - now left.
  - now left.
  - now left.
  - exists m'. auto.
Qed.
(** A low-order key resolved for the sender, given as an argument: bob and carol open the envelope of somebody who has no secret. *)
Example C69_example_public : exists text, encrypt (srepeat 24 "i") (ex_jwe XC20P) (encryptor (whole toy) XC20P) (le_encode 32 0) = Ok text /\
  forall rsk, 32 <= String.length rsk -> exists m', receive (whole toy) text (Some rsk) (Some (le_encode 32 1)) None = Ok m' /\ same_message (ex_jwe XC20P) m'.
Proof.
  assert (HT : exists text, encrypt (srepeat 24 "i") (ex_jwe XC20P) (encryptor (whole toy) XC20P) (le_encode 32 0) = Ok text).
  { assert (EH : exists h, encrypt_header (ex_jwe XC20P) = Ok h) by (eexists; reflexivity). destruct EH as [h EH].
    assert (HC : exists c, xc20p_enc (le_encode 32 0) (srepeat 24 "i") (header_b64 h) (message_json (ex_jwe XC20P)) = Some c).
    { apply xc_total; [apply le_encode_length|reflexivity|vm_compute; discriminate]. }
    destruct HC as [c HC]. assert (HL : String.length c = String.length (message_json (ex_jwe XC20P)) + 16) by (apply xc_round in HC; apply HC).
    eexists. eapply (encrypt_total (srepeat 24 "i") (ex_jwe XC20P) _ _ h c); [exact EH| | |reflexivity].
    - unfold encryptor, check_nonce. change (String.length (srepeat 24 "i") <? 24)%nat with false. cbn [rbind]. rewrite !exact_len_ok by (try apply le_encode_length; reflexivity). cbn [rbind].
      change (xc_enc (whole toy)) with xc20p_enc. rewrite HC. reflexivity.
    - lia. }
  destruct HT as [text HT]. exists text. split; [exact HT|]. intros rsk HR.
  apply (C69_public_envelope toy XC20P (srepeat 24 "i") (ex_jwe XC20P) (le_encode 32 1) rsk (Some (le_encode 32 1)) None "did:toy:alice" text); try assumption; try reflexivity.
  - exact (eo_order toy toy_env).
  - apply ex_jwe_whole.
  - apply ex_jwe_few.
  - exact ex_one_avoids.
  - apply ex_jwe_typ.
  - discriminate.
  - now left.
  - rewrite take_all by (rewrite le_encode_length; lia). apply C69_example_low_order.
Qed.
(** First test vector of RFC 7748, section 5.2. It is computed when this file is compiled, with the virtual machine; only the answer is
    kept, since the proof checker, which has no virtual machine, would take hours for the same computation. *)
Definition rfc7748_vector : bool := Eval vm_compute in
  String.eqb (x25519 (hex "a546e36bf0527c9d3b16154b82465edd62144c0ac1fc5a18506a2244ba449ac4") (hex "e6db6867583030db3594c1a424b15f7c726624ec26b3353b10a903a6d0ab1c4c"))
    (hex "c3da55379de9c6908e94ea4df28d084f32eccf03491c71f754b4075577a28552").
Example C69_example_vector : rfc7748_vector = true.
Proof. reflexivity. Qed.

Print Assumptions C69_prime.
Print Assumptions C69_curve.
Print Assumptions C69_group.
Print Assumptions C69_denominators.
Print Assumptions C69_multiples.
Print Assumptions C69_public_key.
Print Assumptions C69_clamp.
Print Assumptions C69_agreement.
Print Assumptions C69_same_point.
Print Assumptions C69_low_order.
Print Assumptions C69_low_order_receive.
Print Assumptions C69_lawful.
Print Assumptions C69_seal_total.
Print Assumptions C69_seal_receive.
Print Assumptions C69_public_envelope.
