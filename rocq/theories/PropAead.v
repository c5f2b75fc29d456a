(** The two content ciphers of the crate: C68. *)

From Coq Require Import Ascii String Arith NArith List Bool Permutation Lia.
From Verif Require Import Bytes BytesFacts Base64 Utf8 Json Value Types Serde Message Attach ChaCha Sha256 Aead Envelope Spec SpecFacts SetterFacts SpecText CryptoLaws Examples
  SpecSign HeaderFacts SignFacts SignFacts2 PropSign SpecSeal SealFacts SealFacts2 SealFacts3 PropSeal AeadFacts AeadFacts2.
Import ListNotations.
Local Open Scope string_scope.

(** ** C68 *)

(** The laws that the theorems about encrypted envelopes take as hypotheses hold of both. *)
Theorem C68_lawful : aead_ok xc20p_enc xc20p_dec /\ aead_ok aesgcm_enc aesgcm_dec.
Proof. split; [exact xc_aead|exact gcm_aead]. Qed.
(** What is accepted is exactly what encryption under the same key, nonce and associated data produces. *)
Theorem C68_accepted_xc20p : forall key nonce aad text c, xc20p_dec key nonce aad c = Some text <-> xc20p_enc key nonce aad text = Some c.
Proof. intros k n a p c. split; [apply xc_back|]. intros H. now apply xc_round in H. Qed.
Theorem C68_accepted_a256gcm : forall key nonce aad text c, (len64 text <= 2 ^ 36)%N ->
  aesgcm_dec key nonce aad c = Some text <-> aesgcm_enc key nonce aad text = Some c.
Proof. intros k n a p c HP. split; [intros H; now apply gcm_back|]. intros H. now apply gcm_round in H. Qed.
(** The ciphertext is 16 bytes longer than the text, whatever the text. *)
Theorem C68_size : forall key nonce aad text c, xc20p_enc key nonce aad text = Some c \/ aesgcm_enc key nonce aad text = Some c ->
  String.length c = String.length text + 16.
Proof. intros k n a p c [H|H]; [apply xc_round in H|apply gcm_round in H]; apply H. Qed.
(** When encryption succeeds. *)
Theorem C68_defined_xc20p : forall key nonce aad text, (exists c, xc20p_enc key nonce aad text = Some c) <->
  String.length key = 32 /\ String.length nonce = 24 /\ (len64 text < 64 * (2 ^ 32 - 1))%N.
Proof.
  intros k n a p. unfold xc20p_enc. split.
  - intros [c H]. destruct (xc_fits k n p) eqn:F; [|discriminate]. now apply xc_fits_ok in F.
  - intros H. assert (F : xc_fits k n p = true) by (apply xc_fits_ok; exact H). rewrite F. eexists. reflexivity.
Qed.
Theorem C68_defined_a256gcm : forall key nonce aad text, (exists c, aesgcm_enc key nonce aad text = Some c) <->
  String.length key = 32 /\ String.length nonce = 12 /\ (len64 text <= 2 ^ 36)%N /\ (len64 aad <= 2 ^ 36)%N.
Proof.
  intros k n a p. unfold aesgcm_enc. split.
  - intros [c H]. destruct (gcm_fits 0 k n a p) eqn:F; [|discriminate]. apply gcm_fits_ok in F. rewrite N.add_0_r in F. exact F.
  - intros H. assert (F : gcm_fits 0 k n a p = true) by (apply gcm_fits_ok; rewrite N.add_0_r; exact H). rewrite F. eexists. reflexivity.
Qed.
(** Two texts of one length under one key and nonce: the ciphertexts differ exactly where the texts differ. *)
Theorem C68_nonce_reuse : forall key nonce a1 a2 p1 p2 c1 c2, String.length p1 = String.length p2 ->
  (xc20p_enc key nonce a1 p1 = Some c1 /\ xc20p_enc key nonce a2 p2 = Some c2) \/ (aesgcm_enc key nonce a1 p1 = Some c1 /\ aesgcm_enc key nonce a2 p2 = Some c2) ->
  take (String.length p1) (xor_bytes c1 c2) = xor_bytes p1 p2.
Proof.
  intros k n a1 a2 p1 p2 c1 c2 HL [[H1 H2]|[H1 H2]].
  - apply (stream_difference (xc_fits k n) (xc_stream k n) (xc_tag k n a1) (xc_fits k n) (xc_tag k n a2)); [exact H1|exact H2| |exact HL].
    intros q HQ. apply xc_fits_ok in HQ. now apply xc_stream_length.
  - apply (stream_difference (gcm_fits 0 k n a1) (gcm_stream k n) (gcm_tag k n a1) (gcm_fits 0 k n a2) (gcm_tag k n a2)); [exact H1|exact H2| |exact HL].
    intros q HQ. apply gcm_stream_length.
Qed.

(** The table of the AES substitution is the one that FIPS 197 defines: inversion in the field of 256 elements, followed by
    an affine map. *)
Definition field_double (x : N) : N := let y := (2 * x)%N in if (y <? 256)%N then y else N.lxor y 283.
Fixpoint field_mul (n : nat) (x y : N) : N :=
  match n with O => 0%N | S n' => N.lxor (if N.odd x then y else 0%N) (field_mul n' (N.div2 x) (field_double y)) end.
Definition affine (y : N) : N :=
  let rot k := N.lor (N.shiftl y k mod 256) (N.shiftr y (8 - k)) in N.lxor 99 (N.lxor y (N.lxor (rot 1) (N.lxor (rot 2) (N.lxor (rot 3) (rot 4)))))%N.
Definition inverse_of (x y : N) : bool := ((x =? 0) && (y =? 0) || (field_mul 8 x y =? 1))%N%bool.
Theorem C68_substitution : forall x, (x < 256)%N -> exists y, (y < 256)%N /\ ((x = 0 /\ y = 0) \/ field_mul 8 x y = 1)%N /\ sub_byte x = affine y.
Proof.
  set (unaffine := fun s => hd 0%N (filter (fun y => N.eqb (affine y) s) (map N.of_nat (seq 0 256)))).
  assert (HA : forallb (fun n => let x := N.of_nat n in let y := unaffine (sub_byte x) in ((y <? 256) && inverse_of x y && (sub_byte x =? affine y))%N%bool) (seq 0 256) = true) by (vm_compute; reflexivity).
  intros x HX. rewrite forallb_forall in HA. specialize (HA (N.to_nat x)). rewrite N2Nat.id in HA. cbv zeta in HA. rewrite in_seq in HA. specialize (HA ltac:(lia)).
  apply andb_true_iff in HA. destruct HA as [HA H3]. apply andb_true_iff in HA. destruct HA as [H1 H2]. exists (unaffine (sub_byte x)).
  split; [now apply N.ltb_lt|]. split; [|now apply N.eqb_eq]. unfold inverse_of in H2. apply orb_true_iff in H2. destruct H2 as [H2|H2]; [left|right; now apply N.eqb_eq].
  apply andb_true_iff in H2. now rewrite !N.eqb_eq in H2.
Qed.

(** With these ciphers nothing about encryption is assumed any more except that X25519 is commutative: [seal] succeeds on
    every message of up to 64 MiB, ... *)
Theorem C68_seal_total : forall E rnd m sk keys alg a, dh_ok E -> rand_ok rnd ->
  jh_alg (m_jwm m) = Some alg -> In (alg, a) wrap_table -> String.length sk = 32 -> dh_to (m_did m) <> [] ->
  (m_flat_jwe m = true -> List.length (dh_to (m_did m)) = 1) -> (forall l, keys = Some l -> List.length l = List.length (dh_to (m_did m))) ->
  (forall k dest, nth_error (dh_to (m_did m)) k = Some dest -> exists key, known_key E dest (given_key keys k) key /\ 32 <= String.length key) ->
  (len64 (message_json m) <= 2 ^ 26)%N ->
  exists text, seal (ciphers E) rnd m sk keys = Ok text.
Proof.
  intros E rnd m sk keys alg a HD HR HA HI. apply crypto_alg_of_table, crypto_alg_of_ok in HI. destruct HI as [HU ->].
  now apply (real_seal_total E rnd m sk keys a).
Qed.
(** ... every recipient gets the message, ... *)
Theorem C68_seal_receive : forall E rnd m sk keys text i dest rsk sender signing from,
  env_ok E -> dh_ok E -> rand_ok rnd -> sendable (ciphers E) m -> few_custom (m_jwm m) -> avoids envelope_names (dh_other (m_did m)) ->
  jh_typ (m_jwm m) <> DidCommJws -> dh_from (m_did m) = Some from ->
  seal (ciphers E) rnd m sk keys = Ok text -> nth_error (dh_to (m_did m)) i = Some dest -> String.length rsk = 32 ->
  known_key E dest (given_key keys i) (x_pub E rsk) -> known_key E from sender (x_pub E sk) -> others_closed (ciphers E) rnd m sk keys rsk i ->
  exists m', receive (ciphers E) text (Some rsk) sender signing = Ok m' /\ received m m'.
Proof.
  intros E rnd m sk keys text i dest rsk sender signing from HE HD HR HS HF HA HT HFr HSe HN HL HK HSK HB.
  exact (C13_mixed_keys (ciphers E) rnd m sk keys text i dest rsk sender signing from (ciphers_env E HE) (ciphers_ok E HD) HR HS HF HA HT HFr HSe HN HL HK HSK HB).
Qed.
(** ... and so does everybody else who knows the constant content key (C16). *)
Theorem C68_constant_key : exists cek, String.length cek = 32 /\
  forall E rnd m sk keys text alg a k1 k2, env_ok E -> dh_ok E -> sendable (ciphers E) m -> few_custom (m_jwm m) ->
    jh_alg (m_jwm m) = Some alg -> In (alg, a) wrap_table -> seal (ciphers E) rnd m sk keys = Ok text ->
    exists m', decrypt (rt E k1) (rt E k2) text (decrypter (ciphers E) a) cek = Ok m' /\ received m m'.
Proof.
  destruct C16_constant_key as [cek [H1 H2]]. exists cek. split; [exact H1|]. intros E rnd m sk keys text alg a k1 k2 HE HD HS HF HA HI HT.
  exact (H2 (ciphers E) rnd m sk keys text alg a k1 k2 (ciphers_env E HE) (ciphers_ok E HD) HS HF HA HI HT).
Qed.

(** Published test vectors: appendix A.3.1 of draft-irtf-cfrg-xchacha-03 and case 16 of the GCM specification. *)
Definition hex_digit (c : ascii) : N := let x := code c in if (x <? 58)%N then (x - 48)%N else (x - 87)%N.
Fixpoint hex (s : string) : string :=
  match s with String a (String b r) => String (chr (16 * hex_digit a + hex_digit b)) (hex r) | _ => "" end.
Example C68_example_xc20p :
  xc20p_enc (hex "808182838485868788898a8b8c8d8e8f909192939495969798999a9b9c9d9e9f") (hex "404142434445464748494a4b4c4d4e4f5051525354555657") (hex "50515253c0c1c2c3c4c5c6c7")
    "Ladies and Gentlemen of the class of '99: If I could offer you only one tip for the future, sunscreen would be it."
  = Some (hex ("bd6d179d3e83d43b9576579493c0e939572a1700252bfaccbed2902c21396cbb731c7f1b0b4aa6440bf3a82f4eda7e39ae64c6708c54c216cb96b72e1213b452" ++
               "2f8c9ba40db5d945b11b69b982c1bb9e3f3fac2bc369488f76b2383565d3fff921f9664c97637da9768812f615c68b13b52ec0875924c1c7987947deafd8780acf49")).
Proof. vm_compute. reflexivity. Qed.
Example C68_example_a256gcm :
  aesgcm_enc (hex "feffe9928665731c6d6a8f9467308308feffe9928665731c6d6a8f9467308308") (hex "cafebabefacedbaddecaf888") (hex "feedfacedeadbeeffeedfacedeadbeefabaddad2")
    (hex "d9313225f88406e5a55909c5aff5269a86a7a9531534f7da2e4c303d8a318a721c3c0c95956809532fcf0e2449a6b525b16aedf5aa0de657ba637b39")
  = Some (hex "522dc1f099567d07f47f37a32a84427d643a8cdcbfe5c0c97598a2bd2555d1aa8cb08e48590dbb3da7b08b1056828838c5f61e6393ba7a0abcc9f66276fc6ece0f4e1768cddf8853bb2d551b").
Proof. vm_compute. reflexivity. Qed.
(** Two recipients; the second one tries the entry of the first one before its own. *)
Lemma ex_closed : forall a, In a [XC20P; A256GCM] -> others_closed (ciphers toy) ex_rand (ex_jwe a) alice_key (Some ex_keys) carol_key 1.
Proof.
  intros a HA j dest key a' c p Hj Hd Hk Ha esk iv H1 H2. assert (j = 0) as -> by lia.
  assert (key = bob_key) as -> by (destruct Hk as [Hk|[Hk _]]; [symmetry; exact (some_inj _ _ _ Hk)|discriminate]).
  assert (HN : forall b, In b [XC20P; A256GCM] -> forall c, wrap_enc (ciphers toy) b (kek_of (sxor (srepeat 32 "e") (take 32 bob_key)) (sxor alice_key (take 32 bob_key)) b) (srepeat (wrap_len b) "n") "" seal_cek = Some c ->
    wrap_dec (ciphers toy) b (kek_of (sxor carol_key (srepeat 32 "e")) (sxor carol_key alice_key) b) (srepeat (wrap_len b) "n") "" c = None).
  { intros b HB c0 H. destruct HB as [<-|[<-|[]]]; vm_compute in H; apply some_inj in H; subst c0; vm_compute; reflexivity. }
  assert (HB : In a' [XC20P; A256GCM]).
  { destruct a'; [now left|right; now left|]. exfalso. destruct HA as [<-|[<-|[]]]; discriminate Ha. }
  specialize (HN a' HB c H1). assert (HX : @None string = Some p) by exact (eq_trans (eq_sym HN) H2). discriminate HX.
Qed.
Example C68_example_sealed : forall a, In a [XC20P; A256GCM] -> exists text m', seal (ciphers toy) ex_rand (ex_jwe a) alice_key (Some ex_keys) = Ok text /\
  receive (ciphers toy) text (Some carol_key) (Some alice_key) None = Ok m' /\ received (ex_jwe a) m'.
Proof.
  intros a HA.
  assert (HT : exists text, seal (ciphers toy) ex_rand (ex_jwe a) alice_key (Some ex_keys) = Ok text).
  { apply (real_seal_total toy ex_rand (ex_jwe a) alice_key (Some ex_keys) a).
    - exact (co_dh toy toy_crypto).
    - exact ex_rand_ok.
    - intros ->. destruct HA as [H|[H|[]]]; discriminate.
    - destruct HA as [<-|[<-|[]]]; reflexivity.
    - apply srepeat_length.
    - destruct HA as [<-|[<-|[]]]; discriminate.
    - destruct HA as [<-|[<-|[]]]; discriminate.
    - intros l H. injection H as <-. reflexivity.
    - exact ex_keys_known.
    - destruct HA as [<-|[<-|[]]]; vm_compute; discriminate. }
  destruct HT as [text HT]. exists text.
  destruct (C68_seal_receive toy ex_rand (ex_jwe a) alice_key (Some ex_keys) text 1 "did:toy:carol" carol_key (Some alice_key) None "did:toy:alice") as [m' [H1 H2]].
  - exact toy_env.
  - exact (co_dh toy toy_crypto).
  - exact ex_rand_ok.
  - destruct (ex_jwe_sendable a) as [S1 S2 S3 S4 S5 S6 S7]. constructor; [exact S1|exact S2|exact S3|exact S4|exact S5|exact S6|exact S7].
  - apply ex_jwe_few.
  - exact ex_one_avoids.
  - apply ex_jwe_typ.
  - reflexivity.
  - exact HT.
  - reflexivity.
  - apply srepeat_length.
  - now left.
  - now left.
  - now apply ex_closed.
  - exists m'. auto.
Qed.

Print Assumptions C68_lawful.
Print Assumptions C68_accepted_xc20p.
Print Assumptions C68_accepted_a256gcm.
Print Assumptions C68_size.
Print Assumptions C68_defined_xc20p.
Print Assumptions C68_defined_a256gcm.
Print Assumptions C68_nonce_reuse.
Print Assumptions C68_substitution.
Print Assumptions C68_seal_total.
Print Assumptions C68_seal_receive.
Print Assumptions C68_constant_key.
