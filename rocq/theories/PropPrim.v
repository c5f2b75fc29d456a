(** The hash functions and the ciphers against the standards that define them: C71. *)

From Coq Require Import Ascii String Arith NArith List Bool Lia.
From Verif Require Import Bytes BytesFacts Base64 Json Value Types Serde Message ChaCha Sha256 Sha512 Aead Envelope Spec CryptoLaws Examples SpecFacts SetterFacts SpecText SpecSign HeaderFacts SignFacts SignFacts2 PropSign SpecSeal SealFacts SealFacts2 SealFacts3 PropSeal
  AeadFacts AeadFacts2 PropAead SpecPrim PrimFacts PrimFacts2 PrimFacts3 PrimFacts4 PrimUnique.
Import ListNotations.
Local Open Scope nat_scope.
Local Open Scope string_scope.

(** ** C71 *)

(** *** SHA-2, FIPS 180-4 *)

Theorem C71_sha256 : forall text digest, sha2_hash sha2_256 k256 h0_256 text digest <-> digest = sha256 text.
Proof.
  intros s o. split; [|intros ->; apply sha256_is]. intro h. apply (sha2_unique sha2_256 k256 h0_256 s); [cbn; lia|exact h|apply sha256_is].
Qed.
Theorem C71_sha512 : forall text digest, sha2_hash sha2_512 k512 h0_512 text digest <-> digest = sha512 text.
Proof.
  intros s o. split; [|intros ->; apply sha512_is]. intro h. apply (sha2_unique sha2_512 k512 h0_512 s); [cbn; lia|exact h|apply sha512_is].
Qed.
(** The constants are the first bits of the fractional parts of roots of the first primes: square roots of the first 8 at the start,
    cube roots of the first 64 and of the first 80 in the rounds. *)
Theorem C71_constants : exists ps, first_primes (firstn 8 ps) /\ first_primes (firstn 64 ps) /\ first_primes ps /\ List.length ps = 80 /\
  Forall2 (root_bits 2 32) (firstn 8 ps) h0_256 /\ Forall2 (root_bits 3 32) (firstn 64 ps) k256 /\
  Forall2 (root_bits 2 64) (firstn 8 ps) h0_512 /\ Forall2 (root_bits 3 64) ps k512.
Proof. exact constants_ok. Qed.

(** *** AES-256 and GCM, FIPS 197 and NIST SP 800-38D *)

Theorem C71_aes : forall key block out, String.length key = 32 -> String.length block = 16 ->
  (is_aes key block out <-> out = aes_block (expand key) block).
Proof.
  intros k b o hk hb. split; [|intros ->; apply aes_is; assumption]. intro h. apply (aes_unique k b); [exact h|apply aes_is; assumption].
Qed.
(** Inside the limits of the crate the result of encryption is the one of the standard, ... *)
Theorem C71_a256gcm : forall key nonce ad text c, String.length key = 32 -> String.length nonce = 12 -> (len64 ad <= 2 ^ 36)%N -> (len64 text <= 2 ^ 36)%N ->
  (is_gcm key nonce ad text c <-> aesgcm_enc key nonce ad text = Some c) /\ (is_gcm key nonce ad text c <-> aesgcm_dec key nonce ad c = Some text).
Proof.
  intros k n a p c hk hn ha hp. assert (e : is_gcm k n a p c <-> aesgcm_enc k n a p = Some c).
  { split; [|apply gcm_is]. intro h. destruct (proj2 (C68_defined_a256gcm k n a p)) as [d hd]; [repeat split; assumption|].
    rewrite (gcm_unique k n a p c d hn h (gcm_is _ _ _ _ _ hd)). exact hd. }
  split; [exact e|]. rewrite C68_accepted_a256gcm by exact hp. exact e.
Qed.
(** ... and whatever decryption accepts is such a result. *)
Theorem C71_a256gcm_accepted : forall key nonce ad text c, aesgcm_dec key nonce ad c = Some text -> is_gcm key nonce ad text c.
Proof. exact gcm_dec_is. Qed.

(** *** XChaCha20-Poly1305, RFC 8439 and draft-irtf-cfrg-xchacha *)

Theorem C71_xc20p : forall key nonce ad text c, String.length key = 32 -> String.length nonce = 24 -> (len64 text < 64 * (2 ^ 32 - 1))%N ->
  (is_xc20p key nonce ad text c <-> xc20p_enc key nonce ad text = Some c) /\ (is_xc20p key nonce ad text c <-> xc20p_dec key nonce ad c = Some text).
Proof.
  intros k n a p c hk hn hp. assert (e : is_xc20p k n a p c <-> xc20p_enc k n a p = Some c).
  { split; [|apply xc_is]. intro h. destruct (proj2 (C68_defined_xc20p k n a p)) as [d hd]; [repeat split; assumption|].
    rewrite (xc_unique k n a p c d h (xc_is _ _ _ _ _ hd)). exact hd. }
  split; [exact e|]. rewrite C68_accepted_xc20p. exact e.
Qed.
Theorem C71_xc20p_accepted : forall key nonce ad text c, xc20p_dec key nonce ad c = Some text -> is_xc20p key nonce ad text c.
Proof. intros k n a p c h. apply C68_accepted_xc20p in h. exact (xc_is k n a p c h). Qed.
(** The content key of every sealed message (C16): the first half of the first ChaCha20 block for a key and a nonce of zeros. *)
Theorem C71_content_key : exists block, is_chacha_block (zero_bytes 32) (zero_bytes 16) block /\ seal_cek = substring 0 32 block /\
  forall other, is_chacha_block (zero_bytes 32) (zero_bytes 16) other -> other = block.
Proof.
  destruct seal_block_is as [b [h1 h2]]. exists b. split; [exact h1|]. split; [exact h2|]. intros o h. exact (block_unique _ _ _ _ h h1).
Qed.

(** Published test vectors: FIPS 180-4, FIPS 197 appendix C.3, and those of C68. *)
Example C71_example_hashes : sha2_hash sha2_256 k256 h0_256 "abc" (hex "ba7816bf8f01cfea414140de5dae2223b00361a396177a9cb410ff61f20015ad") /\
  sha2_hash sha2_512 k512 h0_512 "abc"
    (hex "ddaf35a193617abacc417349ae20413112e6fa4e89a97ea20a9eeee64b55d39a2192992a274fc1a836ba3c23a3feebbd454d4423643ce80e2a9ac94fa54ca49f").
Proof. split; [apply C71_sha256|apply C71_sha512]; vm_compute; reflexivity. Qed.
Example C71_example_aes : is_aes (hex "000102030405060708090a0b0c0d0e0f101112131415161718191a1b1c1d1e1f") (hex "00112233445566778899aabbccddeeff") (hex "8ea2b7ca516745bfeafc49904b496089").
Proof. apply C71_aes; vm_compute; reflexivity. Qed.
Example C71_example_a256gcm : exists c,
  is_gcm (hex "feffe9928665731c6d6a8f9467308308feffe9928665731c6d6a8f9467308308") (hex "cafebabefacedbaddecaf888") (hex "feedfacedeadbeeffeedfacedeadbeefabaddad2")
    (hex "d9313225f88406e5a55909c5aff5269a86a7a9531534f7da2e4c303d8a318a721c3c0c95956809532fcf0e2449a6b525b16aedf5aa0de657ba637b39") c.
Proof. eexists. exact (gcm_is _ _ _ _ _ C68_example_a256gcm). Qed.
Example C71_example_xc20p : exists c,
  is_xc20p (hex "808182838485868788898a8b8c8d8e8f909192939495969798999a9b9c9d9e9f") (hex "404142434445464748494a4b4c4d4e4f5051525354555657") (hex "50515253c0c1c2c3c4c5c6c7")
    "Ladies and Gentlemen of the class of '99: If I could offer you only one tip for the future, sunscreen would be it." c.
Proof. eexists. exact (xc_is _ _ _ _ _ C68_example_xc20p). Qed.

(** *** Envelopes *)

(** The ciphertext and tag of everything that opens are those of the standard for the transmitted iv, with the protected header as associated data. *)
Theorem C71_opened : forall E a R1 R2 text key m, decrypt R1 R2 text (decrypter (ciphers E) a) key = Ok m ->
  exists iv aad ct p, opens (ciphers E) a R1 R2 text key iv aad ct m /\ message_from_slice R2 p = Some m /\
    match a with XC20P => is_xc20p key iv aad p ct | A256GCM => is_gcm key (take 12 iv) aad p ct | A256CBC => False end.
Proof.
  intros E a R1 R2 text key m h. destruct (C17_decrypt_sound (ciphers E) a R1 R2 text key m h) as [iv [aad [ct ho]]].
  pose proof ho as ho'. destruct ho' as [es [hj [hh [t1 [t2 [t3 [body [tag [p [_ [_ [_ [_ [_ [_ [_ [_ [_ [_ [_ [_ [hd hm]]]]]]]]]]]]]]]]]]]]]].
  exists iv, aad, ct, p. split; [exact ho|]. split; [exact hm|]. unfold content_dec in hd. destruct a; cbn [ciphers xc_dec gcm_dec] in hd; [|  |discriminate hd].
  - destruct (String.length iv =? 24)%nat; [|discriminate hd]. exact (C71_xc20p_accepted _ _ _ _ _ hd).
  - destruct (12 <=? String.length iv)%nat; [|discriminate hd]. exact (C71_a256gcm_accepted _ _ _ _ _ hd).
Qed.
(** So everything that [seal] makes is an envelope of the standard ciphers under the block of zeros, for any sender, recipients, message and random values. *)
Theorem C71_sealed : forall E rnd m sk keys text alg a k1 k2, env_ok E -> dh_ok E -> sendable (ciphers E) m -> few_custom (m_jwm m) ->
  jh_alg (m_jwm m) = Some alg -> In (alg, a) wrap_table -> seal (ciphers E) rnd m sk keys = Ok text ->
  exists block iv aad ct p m', is_chacha_block (zero_bytes 32) (zero_bytes 16) block /\ opens (ciphers E) a (rt E k1) (rt E k2) text (substring 0 32 block) iv aad ct m' /\ message_from_slice (rt E k2) p = Some m' /\ received m m' /\ match a with XC20P => is_xc20p (substring 0 32 block) iv aad p ct | A256GCM => is_gcm (substring 0 32 block) (take 12 iv) aad p ct | A256CBC => False end.
Proof.
  intros E rnd m sk keys text alg a k1 k2 HE HD HS HF HA HI HT. destruct C71_content_key as [b [hb [ek _]]]. exists b. rewrite <- ek.
  apply crypto_alg_of_table, crypto_alg_of_ok in HI. destruct HI as [HU ->].
  destruct (seal_decrypt (ciphers E) rnd m sk keys text a k1 k2 (ciphers_env E HE) (ciphers_ok E HD) HS HF HA HU HT) as [rs [HL HX]].
  destruct (C71_opened E a _ _ text seal_cek _ HX) as [iv [aad [ct [p [ho [hm hc]]]]]]. exists iv, aad, ct, p. eexists. split; [exact hb|]. split; [exact ho|]. split; [exact hm|].
  split; [|exact hc]. split; [|split].
  - destruct (re_message_same (ciphers E) k2 (with_recipients m (Some rs)) (ciphers_env E HE)) as [H1 [H2 [_ [H3 H4]]]]. split; [exact H1|]. split; [exact H2|]. split; [exact H3|exact H4].
  - apply re_message_flags.
  - eexists. split; [reflexivity|]. now rewrite map_length.
Qed.
Example C71_example_sealed : forall a, In a [XC20P; A256GCM] -> exists text m', env_ok toy /\ dh_ok toy /\ sendable (ciphers toy) (ex_jwe a) /\ few_custom (m_jwm (ex_jwe a)) /\
  seal (ciphers toy) ex_rand (ex_jwe a) alice_key (Some ex_keys) = Ok text /\
  decrypt (rt toy 0) (rt toy 1) text (decrypter (ciphers toy) a) seal_cek = Ok m'.
Proof.
  intros a HA. destruct (C68_example_sealed a HA) as [text [m' [HT _]]]. exists text.
  assert (HU : a <> A256CBC) by (intros ->; destruct HA as [H|[H|[]]]; discriminate H).
  assert (HG : exists alg, jh_alg (m_jwm (ex_jwe a)) = Some alg /\ In (alg, a) wrap_table).
  { destruct HA as [<-|[<-|[]]]; eexists; (split; [reflexivity|]); unfold wrap_table; cbn [In]; auto. }
  destruct HG as [alg [HA1 HI]]. apply crypto_alg_of_table, crypto_alg_of_ok in HI. destruct HI as [HU' ->].
  assert (HS : sendable (ciphers toy) (ex_jwe a)).
  { destruct (ex_jwe_sendable a) as [S1 S2 S3 S4 S5 S6 S7]. constructor; [exact S1|exact S2|exact S3|exact S4|exact S5|exact S6|exact S7]. }
  destruct (seal_decrypt (ciphers toy) ex_rand (ex_jwe a) alice_key (Some ex_keys) text a 0 1 (ciphers_env toy toy_env) (ciphers_ok toy (co_dh toy toy_crypto)) HS (ex_jwe_few a) HA1 HU' HT) as [rs [_ HX]].
  eexists. split; [exact toy_env|]. split; [exact (co_dh toy toy_crypto)|]. split; [exact HS|]. split; [apply ex_jwe_few|]. split; [exact HT|exact HX].
Qed.

Print Assumptions C71_sha256.
Print Assumptions C71_sha512.
Print Assumptions C71_constants.
Print Assumptions C71_aes.
Print Assumptions C71_a256gcm.
Print Assumptions C71_a256gcm_accepted.
Print Assumptions C71_xc20p.
Print Assumptions C71_xc20p_accepted.
Print Assumptions C71_content_key.
Print Assumptions C71_opened.
Print Assumptions C71_sealed.
