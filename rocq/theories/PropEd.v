(** The signatures of the crate with Ed25519: C70. *)

From Coq Require Import Ascii String Arith ZArith NArith Znumtheory List Bool Permutation Lia Ring.
From Verif Require Import Bytes BytesFacts Base64 Utf8 Json Value Types Serde SerdeFacts Message Attach ChaCha Sha256 Aead Envelope Spec SpecFacts SetterFacts SpecText CryptoLaws Examples
  SpecSign HeaderFacts SignFacts SignFacts2 PropSign SpecSeal SealFacts SealFacts2 SealFacts3 PropSeal KeyFacts PropKey SpecRoute RouteFacts PropRoute AeadFacts AeadFacts2 PropAead Float PropFloat
  PrimeFacts Curve CurveField Edwards CurveFacts PropCurve Sha512 Ed25519 EdOrder EdPoint EdFacts SignSize.
Import ListNotations.
Local Open Scope nat_scope.
Local Open Scope string_scope.

(** ** C70 *)

(** *** The group *)

(** The curve of RFC 8032 is the one of C69 with the first coordinate multiplied by a root of -1. *)
Definition twist (P : point) : Fp * Fp := (Fmul im (fst P), snd P).
Definition d_const : Fp := inj edwards_d.
Theorem C70_curve : cong (2 ^ 255 - 19) (edwards_d * 121666) (-121665) /\ Fmul im im = Fopp F1 /\
  (forall P, on P <-> let (x, y) := twist P in (y * y - x * x = 1 + d_const * (x * x) * (y * y))%F) /\
  (forall P Q, on P -> on Q -> let (x, y) := twist P in let (x', y') := twist Q in
    twist (padd P Q) = ((x * y' + x' * y) / (1 + d_const * x * x' * y * y'), (y * y' + x * x') / (1 - d_const * x * x' * y * y'))%F).
Proof.
  split; [|split; [exact im_sq|split]].
  - apply cong_sym. exists (-77955)%Z. vm_compute. reflexivity.
  - intros [x y]. unfold on, on_curve, twist, d_const. cbn [fst snd]. rewrite d_eq.
    replace (y * y - im * x * (im * x))%F with (y * y - im * im * (x * x))%F by ring. replace (im * x * (im * x))%F with (im * im * (x * x))%F by ring.
    rewrite im_sq. split; intros H.
    + transitivity (x * x + y * y)%F; [ring|]. rewrite H. ring.
    + transitivity (y * y - Fopp 1 * (x * x))%F; [ring|]. rewrite H. ring.
  - intros [x y] [x' y'] HP HQ. unfold twist, d_const. cbn [padd fst snd]. rewrite d_eq.
    replace (1 + - ed * (im * x) * (im * x') * y * y')%F with (1 - im * im * (ed * x * x' * y * y'))%F by ring.
    replace (1 - - ed * (im * x) * (im * x') * y * y')%F with (1 + im * im * (ed * x * x' * y * y'))%F by ring.
    replace (y * y' + im * x * (im * x'))%F with (y * y' + im * im * (x * x'))%F by ring. rewrite im_sq.
    replace (1 - Fopp 1 * (ed * x * x' * y * y'))%F with (1 + ed * x * x' * y * y')%F by ring.
    replace (1 + Fopp 1 * (ed * x * x' * y * y'))%F with (1 - ed * x * x' * y * y')%F by ring.
    replace (y * y' + Fopp 1 * (x * x'))%F with (y * y' - x * x')%F by ring.
    apply pair_equal_spec. split; [|reflexivity]. replace (im * x * y' + im * x' * y)%F with (im * (x * y' + y * x'))%F by ring.
    generalize (1 + ed * x * x' * y * y')%F. intros b. Local Transparent Fdiv. unfold Fdiv. Local Opaque Fdiv. ring.
Qed.
(** The generator is the point with second coordinate 4/5 and an even first one; its multiples are the group of a prime number of elements. *)
Theorem C70_base : on base /\ Fmul (snd base) (inj 5) = inj 4 /\ point_text base = "X" ++ srepeat 31 "f".
Proof.
  split; [exact on_base|]. split.
  - unfold base. cbn [snd]. rewrite <- inj_mul. apply inj_eq. exists 4%Z. vm_compute. reflexivity.
  - rewrite point_text_is. destruct erep_base as [_ [HX _]]. change (e_z ext_base) with 1%Z in HX. rewrite <- F1_def in HX.
    replace (im * fst base)%F with (inj (e_x ext_base)) by (rewrite HX; ring). reflexivity.
Qed.
Theorem C70_order : l25519 = (2 ^ 252 + 27742317777372353535851937790883648493)%Z /\ prime l25519 /\
  (forall n, pmul n base = pzero <-> (l25519 | Z.of_nat n)%Z).
Proof.
  split; [reflexivity|]. split; [exact l_prime|]. intros n. assert (HL : (0 < l25519)%Z) by reflexivity. split; intros H.
  - apply Z.mod_divide; [lia|]. pose proof (Z.mod_pos_bound (Z.of_nat n) l25519 HL) as HM. destruct (Z.eq_dec (Z.of_nat n mod l25519) 0) as [E|E]; [exact E|].
    elim (base_order (Z.of_nat n mod l25519)); [lia|]. rewrite base_mod by lia. now rewrite Nat2Z.id.
  - apply Z.mod_divide in H; [|lia]. rewrite <- (Nat2Z.id n), <- base_mod by lia. now rewrite H.
Qed.

(** *** Texts of points *)

(** 32 bytes are read as the point with that second coordinate (taken modulo the modulus) and a first one of that parity. *)
Theorem C70_reads : forall s A, reads s A <-> on A /\ snd A = inj (le_decode s mod 2 ^ 255) /\ (fst A = F0 \/ Z.odd (val (Fmul im (fst A))) = Z.testbit (le_decode s) 255).
Proof. exact reads_iff. Qed.
Theorem C70_reads_one : forall s A B, reads s A -> reads s B -> A = B.
Proof. exact reads_unique. Qed.
Theorem C70_text : forall P, on P -> reads (point_text P) P /\ String.length (point_text P) = 32 /\ (forall Q, on Q -> point_text P = point_text Q -> P = Q) /\
  point_text P = le_encode 32 (val (snd P) + 2 ^ 255 * (val (Fmul im (fst P)) mod 2))%Z.
Proof.
  intros P HP. split; [now apply reads_text|]. split; [apply point_text_length|]. split; [intros Q HQ; now apply point_text_inj|apply point_text_is].
Qed.

(** *** Signatures *)

Definition number (s : string) : Z := (le_decode s mod l25519)%Z.
(** The signature of RFC 8032 under the secret number [a], with the nonce [r], the public key [pub] going into the hash. *)
Definition made (a r : Z) (pub msg : string) : string :=
  let big_r := point_text (pmul (Z.to_nat r) base) in
  big_r ++ le_encode 32 ((number (sha512 (big_r ++ pub ++ msg)) * a + r) mod l25519).
Lemma made_is : forall a r pub msg, made a r pub msg = ed_make a r pub msg.
Proof. intros a r pub msg. symmetry. apply make_is. Qed.
(** The secret number of a seed, with the bits 0, 1, 2 and 255 cleared and bit 254 set, and its point. *)
Theorem C70_public_key : forall seed, ed_public seed = point_text (pmul (Z.to_nat (clamp (take 32 (sha512 seed)))) base) /\
  String.length (ed_public seed) = 32.
Proof. intros seed. split; [apply public_text|apply public_length]. Qed.
Theorem C70_sign : forall key msg sg, ed_sign key msg = Some sg <-> exists seed pub A, key = seed ++ pub /\ String.length seed = 32 /\ String.length pub = 32 /\
  reads pub A /\ sg = made (clamp (take 32 (sha512 seed))) (number (sha512 (drop 32 (sha512 seed) ++ msg))) pub msg.
Proof.
  intros key msg sg. split.
  - intros H. apply sign_some in H. destruct H as [seed [pub [A [H1 [H2 [H3 [H4 H5]]]]]]]. exists seed, pub, A. rewrite made_is. auto.
  - intros [seed [pub [A [-> [H2 [H3 [H4 ->]]]]]]]. rewrite made_is. exact (sign_is seed pub msg A H2 H3 H4).
Qed.
(** Accepted is what satisfies the equation without the cofactor, with a reduced second number. *)
Theorem C70_verify : forall key msg sg, ed_verify key msg sg = Some true <->
  String.length key = 32 /\ String.length sg = 64 /\ (le_decode (drop 32 sg) < l25519)%Z /\
  exists A, reads key A /\ take 32 sg =
    point_text (padd (pmul (Z.to_nat (number (sha512 (take 32 sg ++ key ++ msg)))) (popp A)) (pmul (Z.to_nat (le_decode (drop 32 sg))) base)).
Proof.
  intros key msg sg. split.
  - intros H. apply verify_true in H. destruct H as [H1 [H2 [H3 [A [H4 H5]]]]]. repeat (split; [assumption|]). exists A. split; [assumption|]. symmetry. exact H5.
  - intros [H1 [H2 [H3 [A [H4 H5]]]]]. apply verify_true. repeat (split; [assumption|]). exists A. split; [assumption|]. symmetry. exact H5.
Qed.
(** Everything else is refused, and it is an error rather than an invalid signature exactly here. *)
Theorem C70_verify_error : forall key msg sg, ed_verify key msg sg = None <->
  String.length key <> 32 \/ (forall A, ~ reads key A) \/ String.length sg <> 64 \/ (2 ^ 253 <= le_decode (drop 32 sg))%Z.
Proof. exact verify_none. Qed.
(** No second signature differs in the second half only. *)
Theorem C70_unique : forall key msg big_r s t, String.length big_r = 32 -> ed_verify key msg (big_r ++ s) = Some true -> ed_verify key msg (big_r ++ t) = Some true -> s = t.
Proof. exact verify_second_unique. Qed.

(** *** In the envelopes *)

(** [E] with Ed25519 for the algorithm EdDSA. The two ECDSA algorithms are as in [E]. *)
Definition eddsa (E : env) : env := {|
  x_pub := x_pub E; x_dh := x_dh E; xc_enc := xc_enc E; xc_dec := xc_dec E; gcm_enc := gcm_enc E; gcm_dec := gcm_dec E; cbc_enc := cbc_enc E;
  sig_sign := fun a => match a with EdDsa => ed_sign | _ => sig_sign E a end;
  sig_verify := fun a => match a with EdDsa => ed_verify | _ => sig_verify E a end;
  resolve := resolve E; fl := fl E; ho := ho E |}.
Theorem C70_key_pair : forall E seed, String.length seed = 32 -> key_pair (whole (eddsa E)) EdDsa (seed ++ ed_public seed) (ed_public seed).
Proof. intros E seed HS msg s H. exact (sign_verifies seed msg s HS H). Qed.
Lemma seed_signs : forall seed msg, String.length seed = 32 -> exists s, ed_sign (seed ++ ed_public seed) msg = Some s /\ String.length s = 64.
Proof.
  intros seed msg HS. eexists. split; [apply (sign_is seed _ msg _ HS (public_length seed) (public_reads seed))|apply make_length].
Qed.
(** A signed message is received by everybody with the public key: no law of signatures is assumed. *)
Theorem C70_sign_receive : forall E m seed esk epk, orders_ok E -> String.length seed = 32 -> sendable (whole (eddsa E)) m -> few_custom (m_jwm m) ->
  exists text m', sign (as_jws m EdDsa) (signer (whole (eddsa E)) EdDsa) (seed ++ ed_public seed) = Ok text /\
  receive (whole (eddsa E)) text esk epk (Some (ed_public seed)) = Ok m' /\ same_message (with_jwm m jwm_default) m' /\ flags_reset m'.
Proof.
  intros E m seed esk epk HO HL HS HF. destruct (C69_lawful (eddsa E) HO) as [HE _].
  assert (HT : exists text, sign (as_jws m EdDsa) (signer (whole (eddsa E)) EdDsa) (seed ++ ed_public seed) = Ok text).
  { apply C05_sign_total. destruct (seed_signs seed (header_text (sign_header (as_jws m EdDsa)) ++ "." ++ b64_encode (as_raw_json (with_jwm m jwm_default))) HL) as [s [H _]]. exists s. exact H. }
  destruct HT as [text HT]. exists text.
  destruct (C05_sign_receive (whole (eddsa E)) m EdDsa (seed ++ ed_public seed) (ed_public seed) text esk epk HE HS HF (C70_key_pair E seed HL) HT) as [m' H].
  exists m'. split; [exact HT|exact H].
Qed.
(** Whatever makes the signatures: [receive] takes the message if they are valid. *)
Definition signs_as (E : env) (f : string -> string) : env := {|
  x_pub := x_pub E; x_dh := x_dh E; xc_enc := xc_enc E; xc_dec := xc_dec E; gcm_enc := gcm_enc E; gcm_dec := gcm_dec E; cbc_enc := cbc_enc E;
  sig_sign := fun _ _ msg => Some (f msg); sig_verify := sig_verify E; resolve := resolve E; fl := fl E; ho := ho E |}.
Lemma signs_verify : forall E f R1 R2 text key, verify (signs_as E f) R1 R2 text key = verify E R1 R2 text key.
Proof.
  intros E f R1 R2 text key. unfold verify. destruct (oerr (jws_from_slice R1 text) ESerde) as [w| |]; [|reflexivity..]. cbn [rbind]. destruct (jws_entries w) as [l| |]; [|reflexivity..]. cbn [rbind].
  assert (H : check_entries (signs_as E f) (js_payload w) key l = check_entries E (js_payload w) key l); [|now rewrite H].
  induction l as [|x l IH]; [reflexivity|]. cbn [check_entries]. rewrite IH. reflexivity.
Qed.
Lemma signs_jws : forall E f text given, receive_jws (signs_as E f) text given = receive_jws E text given.
Proof.
  intros E f text given. unfold receive_jws. change (rt (signs_as E f)) with (rt E).
  assert (H : forall l i, verify_entries (signs_as E f) i text given l = verify_entries E i text given l).
  { induction l as [|x l IH]; intros i; [reflexivity|]. cbn [verify_entries]. destruct (sig_get x jh_alg); [|apply IH]. destruct (signing_key given (sig_get x jh_kid)); [|reflexivity..]. cbn [rbind].
    rewrite signs_verify, IH. reflexivity. }
  destruct (message_from_str (rt E 5) text) as [m|].
  - destruct (jh_alg (m_jwm m)); [|reflexivity]. destruct (signing_key given (jh_kid (m_jwm m))); [|reflexivity..]. cbn [rbind]. now rewrite signs_verify.
  - destruct (jws_from_str (rt E 8) text) as [w|]; [|reflexivity]. destruct (jws_entries w); [|reflexivity..]. cbn [rbind]. now rewrite H.
Qed.
Lemma signs_receive : forall E f text esk epk gpk, get_message_type (rt E 0) text = Ok DidCommJws ->
  receive (signs_as E f) text esk epk gpk = receive E text esk epk gpk.
Proof.
  intros E f text esk epk gpk H. unfold receive. change (rt (signs_as E f)) with (rt E). rewrite H. cbn [rbind is_jwe_type]. now rewrite signs_jws.
Qed.
Theorem C70_any_signer : forall E m f key pk esk epk, orders_ok E -> sendable (whole (eddsa E)) m -> few_custom (m_jwm m) ->
  (forall msg, ed_verify pk msg (f msg) = Some true) ->
  exists text m', sign (as_jws m EdDsa) (fun _ msg => Ok (f msg)) key = Ok text /\
  receive (whole (eddsa E)) text esk epk (Some pk) = Ok m' /\ same_message (with_jwm m jwm_default) m' /\ flags_reset m'.
Proof.
  intros E m f key pk esk epk HO HS HF HV. destruct (C69_lawful (eddsa E) HO) as [HE _].
  assert (HT : exists text, sign (as_jws m EdDsa) (signer (signs_as (whole (eddsa E)) f) EdDsa) key = Ok text) by (apply C05_sign_total; eexists; reflexivity).
  destruct HT as [text HT]. exists text.
  assert (HE' : env_ok (signs_as (whole (eddsa E)) f)) by (destruct HE; constructor; assumption).
  assert (HS' : sendable (signs_as (whole (eddsa E)) f) m) by (destruct HS; constructor; assumption).
  assert (HK : key_pair (signs_as (whole (eddsa E)) f) EdDsa key pk) by (intros msg s H; apply some_inj in H; subst s; exact (HV msg)).
  destruct (C05_sign_receive (signs_as (whole (eddsa E)) f) m EdDsa key pk text esk epk HE' HS' HF HK HT) as [m' [H1 H2]].
  exists m'. split; [exact HT|]. rewrite signs_receive in H1 by exact (classify_signed _ _ _ _ _ HT). split; [exact H1|exact H2].
Qed.

(** *** What goes wrong *)

(** A public key that is read as the neutral element: one signature is valid for all messages, and no secret is needed. *)
Theorem C70_weak : forall key msg, String.length key = 32 -> reads key pzero -> ed_verify key msg (le_encode 32 1 ++ le_encode 32 0) = Some true.
Proof. exact weak_verifies. Qed.
Theorem C70_weak_receive : forall E m key esk epk, orders_ok E -> sendable (whole (eddsa E)) m -> few_custom (m_jwm m) -> String.length key = 32 -> reads key pzero ->
  exists text m', sign (as_jws m EdDsa) (fun _ _ => Ok (le_encode 32 1 ++ le_encode 32 0)) "" = Ok text /\
  receive (whole (eddsa E)) text esk epk (Some key) = Ok m' /\ same_message (with_jwm m jwm_default) m' /\ flags_reset m'.
Proof.
  intros E m key esk epk HO HS HF HL HR. apply (C70_any_signer E m (fun _ => le_encode 32 1 ++ le_encode 32 0) "" key esk epk HO HS HF). intros msg. now apply C70_weak.
Qed.
(** [ed_sign] takes both halves of a key pair as they are given (src/crypto/signer.rs:33). Two signatures of the same message, with the
    same secret next to two public keys, have the same first half, and the second halves give the secret number away. *)
Theorem C70_two_publics : forall seed pub1 pub2 msg sg1 sg2, String.length seed = 32 ->
  ed_sign (seed ++ pub1) msg = Some sg1 -> ed_sign (seed ++ pub2) msg = Some sg2 -> take 32 sg1 = take 32 sg2 /\
  ((le_decode (drop 32 sg1) - le_decode (drop 32 sg2)) mod l25519 =
   (number (sha512 (take 32 sg1 ++ pub1 ++ msg)) - number (sha512 (take 32 sg2 ++ pub2 ++ msg))) * clamp (take 32 (sha512 seed)) mod l25519)%Z.
Proof. exact two_publics. Qed.
(** Computed from the two signatures, the two public keys and the message only. *)
Definition stolen (msg pub1 sg1 pub2 sg2 : string) : Z :=
  ((le_decode (drop 32 sg1) - le_decode (drop 32 sg2)) *
   (number (sha512 (take 32 sg1 ++ pub1 ++ msg)) - number (sha512 (take 32 sg2 ++ pub2 ++ msg))) ^ (l25519 - 2)) mod l25519.
Theorem C70_forgery : forall E seed pub1 pub2 msg sg1 sg2, orders_ok E -> String.length seed = 32 ->
  ed_sign (seed ++ pub1) msg = Some sg1 -> ed_sign (seed ++ pub2) msg = Some sg2 ->
  number (sha512 (take 32 sg1 ++ pub1 ++ msg)) <> number (sha512 (take 32 sg1 ++ pub2 ++ msg)) ->
  forall m esk epk, sendable (whole (eddsa E)) m -> few_custom (m_jwm m) ->
  exists text m', sign (as_jws m EdDsa) (fun _ other => Ok (made (stolen msg pub1 sg1 pub2 sg2) 1 (ed_public seed) other)) "" = Ok text /\
  receive (whole (eddsa E)) text esk epk (Some (ed_public seed)) = Ok m' /\ same_message (with_jwm m jwm_default) m' /\ flags_reset m'.
Proof.
  intros E seed pub1 pub2 msg sg1 sg2 HO HL H1 H2 HN m esk epk HS HF.
  apply (C70_any_signer E m (fun other => made (stolen msg pub1 sg1 pub2 sg2) 1 (ed_public seed) other) "" (ed_public seed) esk epk HO HS HF).
  intros other. rewrite made_is. exact (leaked_forges seed pub1 pub2 msg sg1 sg2 HL H1 H2 HN 1 other ltac:(discriminate)).
Qed.

(** *** Signed and sealed, with nothing about cryptography assumed *)

Theorem C70_seal_signed_total : forall E rnd m sk keys alg a seed, rand_ok rnd ->
  jh_alg (m_jwm m) = Some alg -> In (alg, a) wrap_table -> String.length sk = 32 -> dh_to (m_did m) <> [] ->
  (m_flat_jwe m = true -> List.length (dh_to (m_did m)) = 1) -> (forall l, keys = Some l -> List.length l = List.length (dh_to (m_did m))) ->
  (forall k dest, nth_error (dh_to (m_did m)) k = Some dest -> exists key, known_key E dest (given_key keys k) key /\ 32 <= String.length key) ->
  String.length seed = 32 -> (N.of_nat (List.length (dh_to (m_did m)) + 2) * (len64 (message_json m) + 1000) <= 2 ^ 22)%N ->
  exists text, seal_signed (whole (eddsa E)) rnd m sk keys EdDsa (seed ++ ed_public seed) = Ok text.
Proof.
  intros E rnd m sk keys alg a seed HR HA HI HL HTo HF HKL HK HS HZ.
  apply crypto_alg_of_table, crypto_alg_of_ok in HI. destruct HI as [HU ->].
  apply (seal_signed_real (real (curve (eddsa E))) rnd m sk keys a EdDsa); auto; [apply whole_dh|].
  intros msg. destruct (seed_signs seed msg HS) as [s [H1 H2]]. exists s. split; [exact H1|lia].
Qed.
Theorem C70_seal_signed : forall E rnd m sk keys text i dest rsk sender seed from,
  orders_ok E -> rand_ok rnd -> sendable (whole (eddsa E)) m -> few_custom (m_jwm m) -> avoids envelope_names (dh_other (m_did m)) -> dh_from (m_did m) = Some from ->
  String.length seed = 32 -> seal_signed (whole (eddsa E)) rnd m sk keys EdDsa (seed ++ ed_public seed) = Ok text ->
  nth_error (dh_to (m_did m)) i = Some dest -> String.length rsk = 32 ->
  known_key E dest (given_key keys i) (x25519_base rsk) -> known_key E from sender (x25519_base sk) -> i = 0 \/ others_closed (whole (eddsa E)) rnd m sk keys rsk i ->
  exists m', receive (whole (eddsa E)) text (Some rsk) sender (Some (ed_public seed)) = Ok m' /\ same_message (with_jwm m jwm_default) m' /\ flags_reset m'.
Proof.
  intros E rnd m sk keys text i dest rsk sender seed from HO HR HS HF HA HFr HSe HT HN HL HK HSK HB. destruct (C69_lawful (eddsa E) HO) as [HE HC].
  assert (HB' : others_closed (whole (eddsa E)) rnd m sk keys rsk i) by (destruct HB as [->|HB]; [apply closed_first|exact HB]).
  exact (C23_round_trip (whole (eddsa E)) rnd m sk keys EdDsa (seed ++ ed_public seed) text i dest rsk sender (ed_public seed) from HE HC HR HS HF HA HFr HT HN HL HK HSK HB' (C70_key_pair E seed HSe)).
Qed.

(** ** Cases *)

Definition ex_seed : string := srepeat 32 "s".
Lemma ex_one_whole : sendable (whole (eddsa toy)) ex_one.
Proof.
  destruct ex_one_sendable as [S1 S2 S3 S4 S5 S6 S7]. constructor; [exact S1|exact S2|exact S3|exact S4|exact S5|exact S6|].
  change (stable (rt (whole (eddsa toy)) 0) ex_body). unfold ex_body. stable_val.
Qed.
Lemma ex_jwe_eddsa : forall a, sendable (whole (eddsa toy)) (ex_jwe a).
Proof.
  intros a. destruct (ex_jwe_sendable a) as [S1 S2 S3 S4 S5 S6 S7]. constructor; [exact S1|exact S2|exact S3|exact S4|exact S5|exact S6|].
  destruct a; change (stable (rt (whole (eddsa toy)) 0) ex_body); unfold ex_body; stable_val.
Qed.
Example C70_example : exists text m', sign (as_jws ex_one EdDsa) (signer (whole (eddsa toy)) EdDsa) (ex_seed ++ ed_public ex_seed) = Ok text /\
  receive (whole (eddsa toy)) text None None (Some (ed_public ex_seed)) = Ok m' /\ same_message (with_jwm ex_one jwm_default) m' /\ flags_reset m'.
Proof.
  apply C70_sign_receive; [exact (eo_order toy toy_env)|apply srepeat_length|exact ex_one_whole|exact ex_one_few].
Qed.
(** Texts of the neutral element: 1, the modulus plus 1, and both with the highest bit set. *)
Lemma weak_text : forall n, (0 <= n < 2 ^ 256)%Z -> cong (2 ^ 255 - 19) (n mod 2 ^ 255) 1 -> reads (le_encode 32 n) pzero.
Proof.
  intros n HN HC. apply C70_reads. split; [exact on_pzero|]. split; [|left; reflexivity]. rewrite le_decode_encode by exact HN.
  unfold pzero. cbn [snd]. rewrite F1_def. symmetry. apply inj_eq. exact HC.
Qed.
Example C70_example_weak : Forall (fun n => reads (le_encode 32 n) pzero) [1; 2 ^ 255 - 18; 2 ^ 255 + 1; 2 ^ 256 - 18]%Z.
Proof.
  repeat constructor; apply weak_text; try (split; [discriminate|reflexivity]).
  - exists 0%Z. reflexivity.
  - exists 1%Z. reflexivity.
  - exists 0%Z. reflexivity.
  - exists 1%Z. reflexivity.
Qed.
Example C70_example_weak_receive : exists text m', sign (as_jws ex_one EdDsa) (fun _ _ => Ok (le_encode 32 1 ++ le_encode 32 0)) "" = Ok text /\
  receive (whole (eddsa toy)) text None None (Some (le_encode 32 1)) = Ok m' /\ same_message (with_jwm ex_one jwm_default) m' /\ flags_reset m'.
Proof.
  apply C70_weak_receive; [exact (eo_order toy toy_env)|exact ex_one_whole|exact ex_one_few|apply le_encode_length|].
  pose proof C70_example_weak as H. inversion H. assumption.
Qed.
Example C70_example_sealed : forall a, In a [XC20P; A256GCM] -> exists text m',
  seal_signed (whole (eddsa toy)) ex_rand (ex_jwe a) alice_key (Some ex_public) EdDsa (ex_seed ++ ed_public ex_seed) = Ok text /\
  receive (whole (eddsa toy)) text (Some bob_key) (Some (x25519_base alice_key)) (Some (ed_public ex_seed)) = Ok m' /\ same_message (with_jwm (ex_jwe a) jwm_default) m' /\ flags_reset m'.
Proof.
  intros a HA.
  assert (HT : exists text, seal_signed (whole (eddsa toy)) ex_rand (ex_jwe a) alice_key (Some ex_public) EdDsa (ex_seed ++ ed_public ex_seed) = Ok text).
  { apply (C70_seal_signed_total toy ex_rand (ex_jwe a) alice_key (Some ex_public) (wrap_name a) a ex_seed).
    - exact ex_rand_ok.
    - destruct HA as [<-|[<-|[]]]; reflexivity.
    - apply crypto_alg_of_table, crypto_alg_of_ok. split; [|reflexivity]. intros ->. destruct HA as [H|[H|[]]]; discriminate.
    - apply srepeat_length.
    - destruct HA as [<-|[<-|[]]]; discriminate.
    - destruct HA as [<-|[<-|[]]]; discriminate.
    - intros l H. apply some_inj in H. subst l. destruct HA as [<-|[<-|[]]]; reflexivity.
    - intros [|[|k]] dest H.
      + exists (x25519_base bob_key). split; [now left|]. rewrite x25519_base_length. lia.
      + exists (x25519_base carol_key). split; [now left|]. rewrite x25519_base_length. lia.
      + exfalso. destruct HA as [<-|[<-|[]]]; destruct k; discriminate H.
    - apply srepeat_length.
    - destruct HA as [<-|[<-|[]]]; vm_compute; discriminate. }
  destruct HT as [text HT]. exists text.
  destruct (C70_seal_signed toy ex_rand (ex_jwe a) alice_key (Some ex_public) text 0 "did:toy:bob" bob_key (Some (x25519_base alice_key)) ex_seed "did:toy:alice") as [m' H].
  - exact (eo_order toy toy_env).
  - exact ex_rand_ok.
  - apply ex_jwe_eddsa.
  - apply ex_jwe_few.
  - exact ex_one_avoids.
  - destruct HA as [<-|[<-|[]]]; reflexivity.
  - apply srepeat_length.
  - exact HT.
  - destruct HA as [<-|[<-|[]]]; reflexivity.
  - apply srepeat_length.
  - now left.
  - now left.
  - now left.
  - exists m'. split; [exact HT|exact H].
Qed.
(** Both signatures of C70_forgery exist. *)
Example C70_example_two : exists sg1 sg2, ed_sign (ex_seed ++ ed_public ex_seed) "m" = Some sg1 /\ ed_sign (ex_seed ++ le_encode 32 1) "m" = Some sg2.
Proof.
  assert (HL : String.length ex_seed = 32) by apply srepeat_length. destruct (seed_signs ex_seed "m" HL) as [sg1 [H _]]. exists sg1. eexists. split; [exact H|].
  apply (sign_is ex_seed (le_encode 32 1) "m" pzero HL); [apply le_encode_length|]. pose proof C70_example_weak as G. inversion G. assumption.
Qed.
(** SHA-512 of abc and the second test of RFC 8032, section 7.1; the same message with the public key 1 hashes to another number, as C70_forgery
    demands. Computed when this file is compiled, like the vector of C69. *)
Definition rfc8032_seed : string := hex "4ccd089b28ff96da9db6c346ec114e0f5b8a319f35aba624da8cf6ed4fb8a6fb".
Definition rfc8032_public : string := hex "3d4017c3e843895a92b70aa74d1b7ebc9c982ccf2ec4968cc0cd55f12af4660c".
Definition rfc8032_signature : string :=
  hex "92a009a9f0d4cab8720e820b5f642540a2b27b5416503f8fb3762223ebdb69da085ac1e43e15996e458f3613d0f11d8c387b2eaeb4302aeeb00d291612bb0c00".
Definition rfc8032_vector : bool := Eval vm_compute in
  String.eqb (sha512 "abc") (hex "ddaf35a193617abacc417349ae20413112e6fa4e89a97ea20a9eeee64b55d39a2192992a274fc1a836ba3c23a3feebbd454d4423643ce80e2a9ac94fa54ca49f")
  && match ed_sign (rfc8032_seed ++ rfc8032_public) "r" with Some s => String.eqb s rfc8032_signature | None => false end
  && negb (number (sha512 (take 32 rfc8032_signature ++ rfc8032_public ++ "r")) =? number (sha512 (take 32 rfc8032_signature ++ le_encode 32 1 ++ "r")))%Z.
Example C70_example_vector : rfc8032_vector = true.
Proof. reflexivity. Qed.

Print Assumptions C70_curve.
Print Assumptions C70_base.
Print Assumptions C70_order.
Print Assumptions C70_reads.
Print Assumptions C70_reads_one.
Print Assumptions C70_text.
Print Assumptions C70_public_key.
Print Assumptions C70_sign.
Print Assumptions C70_verify.
Print Assumptions C70_verify_error.
Print Assumptions C70_unique.
Print Assumptions C70_key_pair.
Print Assumptions C70_sign_receive.
Print Assumptions C70_any_signer.
Print Assumptions C70_weak.
Print Assumptions C70_weak_receive.
Print Assumptions C70_two_publics.
Print Assumptions C70_forgery.
Print Assumptions C70_seal_signed_total.
Print Assumptions C70_seal_signed.
