(** Encrypted envelopes: C12-C20, C41 (encryption half), C30 and C33 (sealed messages), C52. *)

From Coq Require Import Ascii String Arith NArith List Bool Permutation Sorted Lia.
From Verif Require Import Bytes BytesFacts Base64 Base64Facts Utf8 Utf8Facts Json JsonFacts Value ValueFacts Types Serde SerdeFacts
  Message Attach ChaCha Envelope Spec SpecFacts DecodeFacts PlainFacts CodecFacts SetterFacts SpecText CryptoLaws Examples
  SpecSign HeaderFacts SignFacts SignFacts2 PropSign SpecSeal SealFacts SealFacts2 SealFacts3.
Import ListNotations.
Local Open Scope string_scope.

(** ** A sealed example: two recipients, one embedded key with a custom member *)

Definition alice_key : string := srepeat 32 "a".
Definition bob_key : string := srepeat 32 "b".
Definition carol_key : string := srepeat 32 "c".
Definition ex_rand : seal_rand :=
  {| sr_rec := fun i => {| rr_esk := srepeat 32 "e"; rr_iv := fun n => srepeat n "n"; rr_swap := Nat.even i |}; sr_iv := srepeat 24 "i" |}.
Definition ex_jwe (a : crypto_algorithm) : message := as_jwe (resolve toy) ex_one a (Some bob_key).
Definition ex_keys : list (option string) := [Some bob_key; Some carol_key].
Lemma srepeat_length : forall n c, String.length (srepeat n c) = n.
Proof. induction n as [|n IH]; intros c; cbn; auto. Qed.
Lemma ex_rand_ok : rand_ok ex_rand.
Proof. split; intros; apply srepeat_length. Qed.
Lemma toy_total : crypto_total toy.
Proof. split; intros; eexists; reflexivity. Qed.
Lemma as_jwe_good : forall h a k, good_header h -> good_header (jh_with_kid (as_encrypted h a) (Some (b64_encode k))).
Proof.
  intros h a k H. apply good_kid; [apply b64_utf8|]. unfold as_encrypted.
  destruct a; repeat first [apply good_alg; [reflexivity|] | apply good_enc; [reflexivity|] | apply good_typ]; exact H.
Qed.
Lemma ex_jwe_sendable : forall a, sendable toy (ex_jwe a).
Proof. intros a. apply (with_jwm_sendable toy ex_one). exact ex_one_sendable. apply (as_jwe_good (m_jwm ex_one) a bob_key). eapply sendable_header. exact ex_one_sendable. Qed.
Lemma ex_jwe_few : forall a, few_custom (m_jwm (ex_jwe a)).
Proof. intros a. destruct a; exact ex_one_few. Qed.
Lemma ex_one_avoids : avoids envelope_names (dh_other (m_did ex_one)).
Proof. avoid_tac. Qed.
Lemma ex_jwe_typ : forall a, jh_typ (m_jwm (ex_jwe a)) <> DidCommJws.
Proof. intros a. destruct a; discriminate. Qed.
Lemma ex_keys_known : forall k dest, nth_error (dh_to (m_did ex_one)) k = Some dest ->
  exists key, known_key toy dest (given_key (Some ex_keys) k) key /\ 32 <= String.length key.
Proof.
  intros [|[|k]] dest H; cbn in H.
  - exists bob_key. split; [now left|]. unfold bob_key. rewrite srepeat_length. lia.
  - exists carol_key. split; [now left|]. unfold carol_key. rewrite srepeat_length. lia.
  - destruct k; discriminate.
Qed.
Lemma ex_seals : forall a, In a [XC20P; A256GCM] -> exists text, seal toy ex_rand (ex_jwe a) alice_key (Some ex_keys) = Ok text.
Proof.
  intros a HA. apply (seal_total toy ex_rand (ex_jwe a) alice_key (Some ex_keys) a).
  - exact toy_crypto.
  - exact toy_total.
  - exact ex_rand_ok.
  - intros ->. destruct HA as [H|[H|[]]]; discriminate.
  - destruct HA as [<-|[<-|[]]]; reflexivity.
  - apply srepeat_length.
  - destruct HA as [<-|[<-|[]]]; discriminate.
  - destruct HA as [<-|[<-|[]]]; discriminate.
  - intros l H. injection H as <-. reflexivity.
  - exact ex_keys_known.
Qed.

(** ** C12 *)

(** What the recipient gets: the message, with one recipient entry per addressee. *)
Definition received (m m' : message) : Prop :=
  same_content m m' /\ flags_reset m' /\ exists rs, m_recipients m' = Some rs /\ List.length rs = List.length (dh_to (m_did m)).
Lemma re_received : forall E k1 k2 m rs, env_ok E -> List.length rs = List.length (dh_to (m_did m)) ->
  received m (re_message (rt E k2) (re_message (rt E k1) (with_recipients m (Some rs)))).
Proof.
  intros E k1 k2 m rs HE HL. split; [|split].
  - assert (HM : same_message (with_recipients m (Some rs)) (re_message (rt E k2) (re_message (rt E k1) (with_recipients m (Some rs))))).
    { eapply same_message_trans; [|apply re_message_same; exact HE]. now apply re_message_same. }
    destruct HM as [H1 [H2 [_ [H3 H4]]]]. split; [exact H1|]. split; [exact H2|]. split; [exact H3|exact H4].
  - apply re_message_flags.
  - eexists. split; [reflexivity|]. now rewrite !map_length.
Qed.
Theorem C12_seal_receive : forall E rnd m sk keys text i dest rsk signing from,
  env_ok E -> crypto_ok E -> rand_ok rnd -> sendable E m -> few_custom (m_jwm m) -> avoids envelope_names (dh_other (m_did m)) ->
  jh_typ (m_jwm m) <> DidCommJws -> dh_from (m_did m) = Some from ->
  seal E rnd m sk (Some keys) = Ok text ->
  nth_error (dh_to (m_did m)) i = Some dest -> nth_error keys i = Some (Some (x_pub E rsk)) -> String.length rsk = 32 ->
  others_closed E rnd m sk (Some keys) rsk i ->
  exists m', receive E text (Some rsk) (Some (x_pub E sk)) signing = Ok m' /\ received m m'.
Proof.
  intros E rnd m sk keys text i dest rsk gpk from HE HC HR HS HF HA HT HFr HSe HN HK HL HB.
  destruct (seal_receive E rnd m sk (Some keys) text i dest rsk (Some (x_pub E sk)) gpk from) as [rs [_ [HLen [_ [_ HRec]]]]]; auto.
  - left. cbn [given_key]. erewrite nth_error_nth by exact HK. reflexivity.
  - now left.
  - eexists. split; [exact HRec|]. now apply re_received.
Qed.
(** When [seal] succeeds: with keys of 32 bytes, a supported algorithm and consistent arguments. *)
Theorem C12_seal_total : forall E rnd m sk keys alg a, crypto_ok E -> crypto_total E -> rand_ok rnd ->
  jh_alg (m_jwm m) = Some alg -> In (alg, a) wrap_table -> String.length sk = 32 -> dh_to (m_did m) <> [] ->
  (m_flat_jwe m = true -> List.length (dh_to (m_did m)) = 1) -> (forall l, keys = Some l -> List.length l = List.length (dh_to (m_did m))) ->
  (forall k dest, nth_error (dh_to (m_did m)) k = Some dest -> exists key, known_key E dest (given_key keys k) key /\ 32 <= String.length key) ->
  exists text, seal E rnd m sk keys = Ok text.
Proof.
  intros E rnd m sk keys alg a HC HT HR HA HI. apply crypto_alg_of_table, crypto_alg_of_ok in HI. destruct HI as [HU ->].
  now apply (seal_total E rnd m sk keys a).
Qed.
(** The second of two recipients, both algorithms. *)
Example C12_example : forall a, In a [XC20P; A256GCM] -> exists text m', seal toy ex_rand (ex_jwe a) alice_key (Some ex_keys) = Ok text /\
  receive toy text (Some carol_key) (Some alice_key) None = Ok m' /\ received (ex_jwe a) m'.
Proof.
  intros a HA. destruct (ex_seals a HA) as [text HT]. exists text.
  destruct (C12_seal_receive toy ex_rand (ex_jwe a) alice_key ex_keys text 1 "did:toy:carol" carol_key None "did:toy:alice") as [m' [H1 H2]].
  - exact toy_env.
  - exact toy_crypto.
  - exact ex_rand_ok.
  - apply ex_jwe_sendable.
  - apply ex_jwe_few.
  - exact ex_one_avoids.
  - apply ex_jwe_typ.
  - reflexivity.
  - exact HT.
  - reflexivity.
  - reflexivity.
  - apply srepeat_length.
  - apply closed_bound. exact toy_crypto_bound.
  - exists m'. auto.
Qed.

(** ** C13 *)

(** The keys come from the DID documents of the recipient and of the sender. *)
Theorem C13_resolved_keys : forall E rnd m sk text i dest rsk signing from rdoc sdoc,
  env_ok E -> crypto_ok E -> rand_ok rnd -> sendable E m -> few_custom (m_jwm m) -> avoids envelope_names (dh_other (m_did m)) ->
  jh_typ (m_jwm m) <> DidCommJws -> dh_from (m_did m) = Some from ->
  resolve E dest = Some rdoc -> doc_key rdoc "X25519" = Some (x_pub E rsk) -> String.length rsk = 32 ->
  resolve E from = Some sdoc -> doc_key sdoc "X25519" = Some (x_pub E sk) ->
  seal E rnd m sk None = Ok text -> nth_error (dh_to (m_did m)) i = Some dest -> others_closed E rnd m sk None rsk i ->
  exists m', receive E text (Some rsk) None signing = Ok m' /\ received m m'.
Proof.
  intros E rnd m sk text i dest rsk gpk from rdoc sdoc HE HC HR HS HF HA HT HFr HD1 HD2 HL HD3 HD4 HSe HN HB.
  destruct (seal_receive E rnd m sk None text i dest rsk None gpk from) as [rs [_ [HLen [_ [_ HRec]]]]]; auto.
  - right. split; [reflexivity|]. exists rdoc. auto.
  - right. split; [reflexivity|]. exists sdoc. auto.
  - eexists. split; [exact HRec|]. now apply re_received.
Qed.
(** Any mixture: each key is passed or resolved. *)
Theorem C13_mixed_keys : forall E rnd m sk keys text i dest rsk sender signing from,
  env_ok E -> crypto_ok E -> rand_ok rnd -> sendable E m -> few_custom (m_jwm m) -> avoids envelope_names (dh_other (m_did m)) ->
  jh_typ (m_jwm m) <> DidCommJws -> dh_from (m_did m) = Some from ->
  seal E rnd m sk keys = Ok text -> nth_error (dh_to (m_did m)) i = Some dest -> String.length rsk = 32 ->
  known_key E dest (given_key keys i) (x_pub E rsk) -> known_key E from sender (x_pub E sk) -> others_closed E rnd m sk keys rsk i ->
  exists m', receive E text (Some rsk) sender signing = Ok m' /\ received m m'.
Proof.
  intros E rnd m sk keys text i dest rsk spk gpk from HE HC HR HS HF HA HT HFr HSe HN HL HK HSK HB.
  destruct (seal_receive E rnd m sk keys text i dest rsk spk gpk from) as [rs [_ [HLen [_ [_ HRec]]]]]; auto.
  eexists. split; [exact HRec|]. now apply re_received.
Qed.
Definition ex_direct (a : crypto_algorithm) : message := as_jwe (resolve toy) ex_small a (Some bob_key).
Lemma ex_direct_sendable : forall a, sendable toy (ex_direct a).
Proof. intros a. apply (with_jwm_sendable toy ex_small). exact ex_small_sendable. apply (as_jwe_good (m_jwm ex_small) a bob_key). apply default_header. Qed.
Lemma ex_direct_few : forall a, few_custom (m_jwm (ex_direct a)).
Proof. intros a. destruct a; split; exact I. Qed.
Lemma ex_direct_seals : exists text, seal toy ex_rand (ex_direct XC20P) alice_key None = Ok text.
Proof.
  apply (seal_total toy ex_rand (ex_direct XC20P) alice_key None XC20P).
  - exact toy_crypto.
  - exact toy_total.
  - exact ex_rand_ok.
  - discriminate.
  - reflexivity.
  - apply srepeat_length.
  - discriminate.
  - discriminate.
  - discriminate.
  - intros [|k] dest H; [|destruct k; discriminate]. apply some_inj in H. subst dest. exists bob_key. split; [|unfold bob_key; rewrite srepeat_length; lia].
    right. split; [reflexivity|]. exists (toy_doc bob_key). split; reflexivity.
Qed.
Example C13_example : exists text m', seal toy ex_rand (ex_direct XC20P) alice_key None = Ok text /\
  receive toy text (Some bob_key) None None = Ok m' /\ received (ex_direct XC20P) m'.
Proof.
  destruct ex_direct_seals as [text HT].
  exists text.
  destruct (C13_resolved_keys toy ex_rand (ex_direct XC20P) alice_key text 0 "did:toy:bob" bob_key None "did:toy:alice" (toy_doc bob_key) (toy_doc alice_key)) as [m' [H1 H2]].
  - exact toy_env.
  - exact toy_crypto.
  - exact ex_rand_ok.
  - apply ex_direct_sendable.
  - apply ex_direct_few.
  - exact ex_small_free.
  - discriminate.
  - reflexivity.
  - reflexivity.
  - reflexivity.
  - apply srepeat_length.
  - reflexivity.
  - reflexivity.
  - exact HT.
  - reflexivity.
  - apply closed_first.
  - exists m'. auto.
Qed.

(** ** C14 *)

(** Bad arguments are refused with their error, whatever the environment and the random values are. *)
Theorem C14_bad_arguments : forall m sk keys err, bad_argument m sk keys err -> forall E rnd, seal E rnd m sk keys = Err err.
Proof. exact bad_argument_err. Qed.
(** These errors are returned for nothing else. *)
Theorem C14_only_bad_arguments : forall E rnd m sk keys err, In err argument_errors -> seal E rnd m sk keys = Err err -> bad_argument m sk keys err.
Proof. exact argument_error_bad. Qed.
(** At most one of them applies. *)
Theorem C14_one_error : forall m sk keys e1 e2, bad_argument m sk keys e1 -> bad_argument m sk keys e2 -> e1 = e2.
Proof.
  intros m sk keys e1 e2 H1 H2. pose proof (bad_argument_err _ _ _ _ H1 toy ex_rand) as G1. pose proof (bad_argument_err _ _ _ _ H2 toy ex_rand) as G2.
  rewrite G1 in G2. now injection G2.
Qed.
Example C14_examples :
  bad_argument (ex_jwe XC20P) "short" (Some []) (EInvalidKeySize "!32") /\
  bad_argument (ex_jwe XC20P) alice_key (Some []) (EGeneric "`to` and `recipient_public_keys` must have same length") /\
  bad_argument (set_to (message_new "urn:3") []) alice_key None ENoJweRecipient /\
  bad_argument (as_flat_jwe (resolve toy) ex_one XC20P None) alice_key None (EGeneric "flat JWE serialization only supports a single `to`").
Proof.
  split; [|split; [|split]].
  - constructor. discriminate.
  - eapply ba_count; [apply srepeat_length|reflexivity|discriminate].
  - constructor; [apply srepeat_length|now left|reflexivity].
  - constructor; [apply srepeat_length|discriminate|reflexivity|cbn; lia].
Qed.

(** ** C15 *)

Theorem C15_entries : forall E rnd m sk keys text alg, jh_alg (m_jwm m) = Some alg -> seal E rnd m sk keys = Ok text ->
  exists es, parse text = Some (JObj es) /\ NoDup (map fst es) /\
   if m_flat_jwe m then (exists dest, dh_to (m_did m) = [dest] /\ entry_for dest alg es) /\ ~ In "recipients" (map fst es)
   else exists l, In ("recipients", JArr l) es /\ Forall2 (fun dest e => exists f, e = JObj f /\ entry_for dest alg f) (dh_to (m_did m)) l /\
        ~ In "header" (map fst es) /\ ~ In "encrypted_key" (map fst es).
Proof. exact seal_contents. Qed.
Example C15_example : jh_alg (m_jwm (ex_jwe A256GCM)) = Some "ECDH-1PU+A256KW" /\ exists text, seal toy ex_rand (ex_jwe A256GCM) alice_key (Some ex_keys) = Ok text.
Proof. split; [reflexivity|]. apply ex_seals. right. now left. Qed.

(** ** C16 *)

(** One key opens every envelope that [seal] makes, for any sender, recipients, message and random values. *)
Theorem C16_constant_key : exists cek, String.length cek = 32 /\
  forall E rnd m sk keys text alg a k1 k2, env_ok E -> crypto_ok E -> sendable E m -> few_custom (m_jwm m) ->
    jh_alg (m_jwm m) = Some alg -> In (alg, a) wrap_table -> seal E rnd m sk keys = Ok text ->
    exists m', decrypt (rt E k1) (rt E k2) text (decrypter E a) cek = Ok m' /\ received m m'.
Proof.
  exists seal_cek. split; [exact seal_cek_length|]. intros E rnd m sk keys text alg a k1 k2 HE HC HS HF HA HI HT.
  apply crypto_alg_of_table, crypto_alg_of_ok in HI. destruct HI as [HU ->].
  destruct (seal_decrypt E rnd m sk keys text a k1 k2 HE HC HS HF HA HU HT) as [rs [HL HD]]. eexists. split; [exact HD|].
  split; [|split].
  - destruct (re_message_same E k2 (with_recipients m (Some rs)) HE) as [H1 [H2 [_ [H3 H4]]]]. split; [exact H1|]. split; [exact H2|]. split; [exact H3|exact H4].
  - apply re_message_flags.
  - eexists. split; [reflexivity|]. now rewrite map_length.
Qed.
(** Its value: the first 32 bytes of the ChaCha20 key stream for an all-zero key, nonce and counter. *)
Theorem C16_key_value : seal_cek = string_of_list_ascii (map chr
  [118; 184; 224; 173; 160; 241; 61; 144; 64; 93; 106; 229; 83; 134; 189; 40; 189; 210; 25; 184; 160; 141; 237; 26; 168; 54; 239; 204; 139; 119; 13; 199])%N.
Proof. vm_compute. reflexivity. Qed.
Example C16_example : exists text, seal toy ex_rand (ex_jwe XC20P) alice_key (Some ex_keys) = Ok text.
Proof. apply ex_seals. now left. Qed.

(** ** C17 *)

(** Whatever [decrypt] accepts, the cipher accepted exactly as transmitted. *)
Theorem C17_decrypt_sound : forall E a R1 R2 text key m, decrypt R1 R2 text (decrypter E a) key = Ok m ->
  exists iv aad ct, opens E a R1 R2 text key iv aad ct m.
Proof. exact decrypt_opens. Qed.
(** If nothing but one text decrypts under the key, an accepted envelope has the iv, the protected header (as re-serialised),
    ciphertext and tag of the sender's envelope, and the message is the sender's. XC20P binds the whole iv. *)
Theorem C17_tampering_xc20p : forall E R1 R2 text key m' iv aad p m, decrypt R1 R2 text (decrypter E XC20P) key = Ok m' ->
  sole_text (xc_enc E) (xc_dec E) key iv aad p -> message_from_slice R2 p = Some m ->
  m' = m /\ exists ct, opens E XC20P R1 R2 text key iv aad ct m /\ xc_enc E key iv aad p = Some ct.
Proof.
  intros E R1 R2 text key m' iv aad p m H HU HM. apply decrypt_opens in H. destruct H as [iv' [aad' [ct HO]]]. pose proof HO as HO'.
  destruct HO as [es [hj [h [t1 [t2 [t3 [body [tag [p' [P1 [P2 [P3 [P4 [P5 [P6 [P7 [P8 [P9 [P10 [P11 [P12 [P13 P14]]]]]]]]]]]]]]]]]]]]]].
  unfold content_dec in P13. destruct (String.length iv' =? 24)%nat; [|discriminate]. apply HU in P13. destruct P13 as [-> [-> [-> P13]]].
  rewrite HM in P14. injection P14 as <-. split; [reflexivity|]. exists ct. auto.
Qed.
(** A256GCM binds only the first 12 bytes of it. *)
Theorem C17_tampering_a256gcm : forall E R1 R2 text key m' nonce aad p m, decrypt R1 R2 text (decrypter E A256GCM) key = Ok m' ->
  sole_text (gcm_enc E) (gcm_dec E) key nonce aad p -> message_from_slice R2 p = Some m ->
  m' = m /\ exists iv ct, opens E A256GCM R1 R2 text key iv aad ct m /\ take 12 iv = nonce /\ gcm_enc E key nonce aad p = Some ct.
Proof.
  intros E R1 R2 text key m' nonce aad p m H HU HM. apply decrypt_opens in H. destruct H as [iv' [aad' [ct HO]]]. pose proof HO as HO'.
  destruct HO as [es [hj [h [t1 [t2 [t3 [body [tag [p' [P1 [P2 [P3 [P4 [P5 [P6 [P7 [P8 [P9 [P10 [P11 [P12 [P13 P14]]]]]]]]]]]]]]]]]]]]]].
  unfold content_dec in P13. destruct (12 <=? String.length iv')%nat; [|discriminate]. apply HU in P13. destruct P13 as [H12 [-> [-> P13]]].
  rewrite HM in P14. injection P14 as <-. split; [reflexivity|]. exists iv', ct. auto.
Qed.
(** A key that was used any number of times: what is accepted is one of the texts encrypted with it, unaltered, with the nonce and
    protected header it was encrypted with. *)
Theorem C17_log_xc20p : forall E R1 R2 text key log m, decrypt R1 R2 text (decrypter E XC20P) key = Ok m -> only_log (xc_dec E) key log ->
  exists iv aad p ct, In (iv, aad, p, ct) log /\ opens E XC20P R1 R2 text key iv aad ct m /\ message_from_slice R2 p = Some m.
Proof.
  intros E R1 R2 text key log m H HU. apply decrypt_opens in H. destruct H as [iv [aad [ct HO]]]. pose proof HO as HO'.
  destruct HO as [es [hj [h [t1 [t2 [t3 [body [tag [p [P1 [P2 [P3 [P4 [P5 [P6 [P7 [P8 [P9 [P10 [P11 [P12 [P13 P14]]]]]]]]]]]]]]]]]]]]]].
  unfold content_dec in P13. destruct (String.length iv =? 24)%nat; [|discriminate]. apply HU in P13. exists iv, aad, p, ct. auto.
Qed.
Theorem C17_log_a256gcm : forall E R1 R2 text key log m, decrypt R1 R2 text (decrypter E A256GCM) key = Ok m -> only_log (gcm_dec E) key log ->
  exists iv aad p ct, In (take 12 iv, aad, p, ct) log /\ opens E A256GCM R1 R2 text key iv aad ct m /\ message_from_slice R2 p = Some m.
Proof.
  intros E R1 R2 text key log m H HU. apply decrypt_opens in H. destruct H as [iv [aad [ct HO]]]. pose proof HO as HO'.
  destruct HO as [es [hj [h [t1 [t2 [t3 [body [tag [p [P1 [P2 [P3 [P4 [P5 [P6 [P7 [P8 [P9 [P10 [P11 [P12 [P13 P14]]]]]]]]]]]]]]]]]]]]]].
  unfold content_dec in P13. destruct (12 <=? String.length iv)%nat; [|discriminate]. apply HU in P13. exists iv, aad, p, ct. auto.
Qed.
(** The toy ciphers restricted to one key, nonce, associated data and text. *)
Definition sole_dec (key iv aad p : string) (k n a c : string) : option string :=
  if (String.eqb k key && String.eqb n iv && String.eqb a aad && String.eqb c (p ++ toy_tag key iv aad p))%bool then Some p else None.
Lemma sole_dec_sole : forall key iv aad p, sole_text toy_enc (sole_dec key iv aad p) key iv aad p.
Proof.
  intros key iv aad p n a c p' H. unfold sole_dec in H.
  destruct (String.eqb_spec key key); [|discriminate]. destruct (String.eqb_spec n iv); [|discriminate]. destruct (String.eqb_spec a aad); [|discriminate].
  destruct (String.eqb_spec c (p ++ toy_tag key iv aad p)) as [->|]; [|discriminate]. injection H as <-. auto.
Qed.
Definition sole_env (key iv iv12 aad p : string) : env := {|
  x_pub := x_pub toy; x_dh := x_dh toy; xc_enc := toy_enc; xc_dec := sole_dec key iv aad p; gcm_enc := toy_enc; gcm_dec := sole_dec key iv12 aad p;
  cbc_enc := cbc_enc toy; sig_sign := sig_sign toy; sig_verify := sig_verify toy; resolve := resolve toy; fl := fl toy; ho := ho toy |}.
Definition ex_clear : message := with_recipients ex_small (Some []).
Definition ex_aad : string := header_text (seal_header ex_small).
Lemma ex_clear_sendable : sendable toy ex_clear.
Proof. apply with_recipients_sendable; [exact ex_small_sendable|constructor]. Qed.
Lemma sole_env_decrypts : forall a iv, In a [XC20P; A256GCM] -> String.length iv = 24 ->
  let E := sole_env bob_key iv (take 12 iv) ex_aad (message_json ex_clear) in
  exists text m, decrypt (rt E 0) (rt E 1) text (decrypter E a) bob_key = Ok m /\ message_from_slice (rt E 1) (message_json ex_clear) = Some m.
Proof.
  intros a iv HA HL E. pose (c := message_json ex_clear ++ toy_tag bob_key (match a with XC20P => iv | _ => take 12 iv end) ex_aad (message_json ex_clear)).
  exists (jwe_json (sealed_env (seal_header ex_small) (None, Some []) (take (String.length c - 16) c) (drop (String.length c - 16) c) iv)).
  exists (re_message (rt E 1) ex_clear). split; [|exact (sendable_from_slice toy 1 ex_clear ex_clear_sendable)].
  rewrite decrypt_env; [|eapply sealed_env_good; [eapply seal_header_good; exact ex_small_sendable|now left|constructor]].
  rewrite take_drop. replace (re_jwm (rt E 0) (seal_header ex_small)) with (seal_header ex_small) by reflexivity.
  assert (HD : decrypter E a iv bob_key c (header_b64 (seal_header ex_small)) = Ok (message_json ex_clear)).
  { apply decrypter_ok. split; [apply srepeat_length|]. unfold content_dec. change (header_b64 (seal_header ex_small)) with ex_aad.
    destruct HA as [<-|[<-|[]]].
    - rewrite HL. cbn [Nat.eqb]. cbn [E sole_env xc_dec]. unfold sole_dec, c. rewrite !String.eqb_refl. reflexivity.
    - rewrite HL. cbn [Nat.leb]. cbn [E sole_env gcm_dec]. unfold sole_dec, c. rewrite !String.eqb_refl. reflexivity. }
  rewrite HD. exact (f_equal (fun o => oerr o ESerde) (sendable_from_slice toy 1 ex_clear ex_clear_sendable)).
Qed.
Example C17_example : forall iv, String.length iv = 24 -> let E := sole_env bob_key iv (take 12 iv) ex_aad (message_json ex_clear) in
  sole_text (xc_enc E) (xc_dec E) bob_key iv ex_aad (message_json ex_clear) /\ sole_text (gcm_enc E) (gcm_dec E) bob_key (take 12 iv) ex_aad (message_json ex_clear) /\
  forall a, In a [XC20P; A256GCM] -> exists text m, decrypt (rt E 0) (rt E 1) text (decrypter E a) bob_key = Ok m /\ message_from_slice (rt E 1) (message_json ex_clear) = Some m.
Proof.
  intros iv HL E. split; [apply sole_dec_sole|]. split; [apply sole_dec_sole|]. intros a HA. exact (sole_env_decrypts a iv HA HL).
Qed.
Example C17_example_log : forall iv, String.length iv = 24 -> let E := sole_env bob_key iv (take 12 iv) ex_aad (message_json ex_clear) in
  exists ct text m, only_log (xc_dec E) bob_key [(iv, ex_aad, message_json ex_clear, ct)] /\ decrypt (rt E 0) (rt E 1) text (decrypter E XC20P) bob_key = Ok m.
Proof.
  intros iv HL E. exists (message_json ex_clear ++ toy_tag bob_key iv ex_aad (message_json ex_clear)).
  destruct (sole_env_decrypts XC20P iv (or_introl eq_refl) HL) as [text [m [HD _]]]. exists text, m. split; [|exact HD].
  intros n a c p H. apply sole_dec_sole in H. destruct H as [-> [-> [-> H]]]. unfold toy_enc in H. apply some_inj in H. rewrite H. now left.
Qed.

(** ** C18 *)

(** The sender [me] makes, with its own key only, an envelope whose content claims to be from [victim]; the recipient accepts it
    although it looks up or is given the key of [me]. *)
Theorem C18_forged_from : forall E rnd m me victim sk keys alg a i dest rsk sender signing,
  env_ok E -> crypto_ok E -> crypto_total E -> rand_ok rnd -> sendable E m -> few_custom (m_jwm m) -> avoids envelope_names (dh_other (m_did m)) ->
  jh_typ (m_jwm m) <> DidCommJws -> jh_alg (m_jwm m) = Some alg -> In (alg, a) wrap_table ->
  dh_from (m_did m) = Some victim -> rust_string me -> String.length sk = 32 -> List.length keys = List.length (dh_to (m_did m)) ->
  (forall k d, nth_error (dh_to (m_did m)) k = Some d -> exists key, known_key E d (nth k keys None) key /\ 32 <= String.length key) ->
  nth_error (dh_to (m_did m)) i = Some dest -> String.length rsk = 32 -> known_key E dest (nth i keys None) (x_pub E rsk) ->
  known_key E me sender (x_pub E sk) -> others_closed E rnd m sk (Some keys) rsk i ->
  exists text m', forge E rnd m me sk keys = Ok text /\ receive E text (Some rsk) sender signing = Ok m' /\ same_content m m' /\
    dh_from (m_did m') = Some victim.
Proof.
  intros E rnd m me victim sk keys alg a i dest rsk sender gpk HE HC HT HR HS HF HA HTy HAl HI HFr HMe LS HKL HKs HN L HK HSK HB.
  apply crypto_alg_of_table, crypto_alg_of_ok in HI. destruct HI as [HU ->].
  destruct (forge_total E rnd m me sk keys a) as [text HFo]; auto.
  destruct (forge_receive E rnd m me sk keys text i dest rsk sender gpk) as [rs HRec]; auto.
  assert (HM : same_message (with_recipients m (Some rs)) (re_message (rt E 9) (re_message (rt E 3) (with_recipients m (Some rs))))).
  { eapply same_message_trans; [|apply re_message_same; exact HE]. now apply re_message_same. }
  eexists text, _. split; [exact HFo|]. split; [exact HRec|]. split.
  - destruct HM as [H1 [H2 [_ [H3 H4]]]]. split; [exact H1|]. split; [exact H2|]. split; [exact H3|exact H4].
  - exact HFr.
Qed.
(** What is authenticated is the key of [skid]: it enters the key encryption key. *)
Theorem C18_skid_key_used : forall E text sk sender t e l, receive_jwe E text sk sender = Ok t -> jwe_from_str (rt E 1) text = Some e ->
  jwe_recipients e = Some l ->
  exists a skid key r ek epub iv ct cek, usable a /\ jwe_get e jh_skid = Some skid /\ known_key E skid sender key /\ In r l /\
    jk_epk (rc_header r) = Some ek /\ b64_decode (ep_x ek) = Some epub /\
    wrap_dec E a (kek_of (x_dh E (take 32 sk) epub) (x_dh E (take 32 sk) (take 32 key)) a) iv "" ct = Some cek.
Proof. exact receive_jwe_sender. Qed.
(** Bob pretends to be Alice towards Carol. *)
Example C18_example : exists text m', forge toy ex_rand (ex_jwe XC20P) "did:toy:bob" bob_key ex_keys = Ok text /\
  receive toy text (Some carol_key) None None = Ok m' /\ same_content (ex_jwe XC20P) m' /\ dh_from (m_did m') = Some "did:toy:alice".
Proof.
  apply (C18_forged_from toy ex_rand (ex_jwe XC20P) "did:toy:bob" "did:toy:alice" bob_key ex_keys "ECDH-1PU+XC20PKW" XC20P 1 "did:toy:carol" carol_key None None).
  - exact toy_env.
  - exact toy_crypto.
  - exact toy_total.
  - exact ex_rand_ok.
  - apply ex_jwe_sendable.
  - apply ex_jwe_few.
  - exact ex_one_avoids.
  - discriminate.
  - reflexivity.
  - right. now left.
  - reflexivity.
  - reflexivity.
  - apply srepeat_length.
  - reflexivity.
  - exact ex_keys_known.
  - reflexivity.
  - apply srepeat_length.
  - now left.
  - right. split; [reflexivity|]. exists (toy_doc bob_key). split; reflexivity.
  - apply closed_bound. exact toy_crypto_bound.
Qed.

(** ** C19 *)

Theorem C19_anonymous_rejected : forall E rnd m sk keys text rsk sender signing, sendable E m -> dh_from (m_did m) = None ->
  seal E rnd m sk keys = Ok text -> 32 <= String.length rsk -> (forall k, sender = Some k -> 32 <= String.length k) ->
  exists x, receive E text (Some rsk) sender signing = Err x.
Proof.
  intros E rnd m sk keys text rsk sender gpk HS HF HT L1 L2. destruct (seal_anonymous E rnd m sk keys text rsk sender HS HF HT L1 L2) as [x HX].
  exists x. apply receive_err; [eapply seal_classify; exact HT|exact HX].
Qed.
Definition set_from_none (m : message) : message := with_did m (dh_with_from (m_did m) None).
Definition ex_anon : message := as_jwe (resolve toy) (set_from_none ex_small) XC20P (Some bob_key).
Lemma ex_anon_sendable : sendable toy ex_anon.
Proof. apply (with_jwm_sendable toy (set_from_none ex_small)). send_msg. apply (as_jwe_good (m_jwm ex_small) XC20P bob_key). apply default_header. Qed.
Example C19_example : sendable toy ex_anon /\ dh_from (m_did ex_anon) = None /\ exists text, seal toy ex_rand ex_anon alice_key None = Ok text.
Proof.
  split; [exact ex_anon_sendable|]. split; [reflexivity|].
  apply (seal_total toy ex_rand ex_anon alice_key None XC20P).
  - exact toy_crypto.
  - exact toy_total.
  - exact ex_rand_ok.
  - discriminate.
  - reflexivity.
  - apply srepeat_length.
  - discriminate.
  - discriminate.
  - discriminate.
  - intros [|k] dest H; [|destruct k; discriminate]. apply some_inj in H. subst dest. exists bob_key. split; [|unfold bob_key; rewrite srepeat_length; lia].
    right. split; [reflexivity|]. exists (toy_doc bob_key). split; reflexivity.
Qed.

(** ** C20 *)

Theorem C20_cbc_never_seals : forall E rnd m key sk keys text, seal E rnd (as_jwe (resolve E) m A256CBC key) sk keys <> Ok text /\
  seal E rnd (as_flat_jwe (resolve E) m A256CBC key) sk keys <> Ok text.
Proof.
  intros E rnd m key sk keys text. split; apply (unknown_alg_seal E rnd _ sk keys "A256CBC"); try apply as_jwe_alg;
    (intros [H|[H|[]]]; discriminate).
Qed.
(** It is an error, not a panic, when keys have at least 32 bytes. *)
Theorem C20_cbc_error : forall E rnd m key sk keys, rand_ok rnd ->
  (forall k dest pk, nth_error (dh_to (m_did m)) k = Some dest -> known_key E dest (given_key keys k) pk -> 32 <= String.length pk) ->
  exists x, seal E rnd (as_jwe (resolve E) m A256CBC key) sk keys = Err x.
Proof.
  intros E rnd m key sk keys HR HK. apply (unknown_alg_seal E rnd _ sk keys "A256CBC"); [apply as_jwe_alg|intros [H|[H|[]]]; discriminate|exact HR|].
  assert (HT : dh_to (m_did (as_jwe (resolve E) m A256CBC key)) = dh_to (m_did m)).
  { unfold as_jwe. destruct key; [reflexivity|]. destruct (dh_from (m_did m)); [|reflexivity]. destruct (resolve E s); reflexivity. }
  rewrite HT. exact HK.
Qed.
Theorem C20_cbc_never_routes : forall E r1 r2 uuid m key sk keys mediator mkey,
  routed_by E r1 r2 uuid (as_jwe (resolve E) m A256CBC key) sk keys mediator mkey = Err EJweParse.
Proof. intros E r1 r2 uuid m key sk keys mediator mkey. unfold routed_by, crypter_of. rewrite as_jwe_alg. reflexivity. Qed.
(** The two supported ciphers are recognised again from the header. *)
Theorem C20_supported : forall r m a key, In a [XC20P; A256GCM] -> exists alg, jh_alg (m_jwm (as_jwe r m a key)) = Some alg /\ In (alg, a) wrap_table /\
  crypto_alg_of alg = Ok a.
Proof.
  intros r m a key HA. exists (wrap_name a). rewrite as_jwe_alg. destruct HA as [<-|[<-|[]]]; (split; [reflexivity|]); (split; [cbn; tauto|reflexivity]).
Qed.
Example C20_example : exists x, seal toy ex_rand (as_jwe (resolve toy) ex_one A256CBC None) alice_key (Some ex_keys) = Err x.
Proof.
  apply C20_cbc_error; [exact ex_rand_ok|]. intros [|[|k]] dest pk H HK; cbn in H; [| |destruct k; discriminate]; injection H as <-;
    (destruct HK as [HK|[HK _]]; [|discriminate]); injection HK as <-; unfold bob_key, carol_key; rewrite srepeat_length; lia.
Qed.

(** ** C41, encrypted envelopes *)

Theorem C41_encrypted_types : forall iv m f cek text, rust_message m -> encrypt iv m f cek = Ok text ->
  exists es hj, parse text = Some (JObj es) /\ protected_tree (JObj es) hj /\
    text_field jose_names hj "typ" (match jh_typ (m_jwm m) with DidCommForward => "https://didcomm.org/routing/2.0/forward" | _ => "application/didcomm-encrypted+json" end).
Proof. exact encrypt_types. Qed.
Theorem C41_sealed_types : forall E rnd m sk keys text, sendable E m -> seal E rnd m sk keys = Ok text ->
  exists es hj, parse text = Some (JObj es) /\ protected_tree (JObj es) hj /\
    text_field jose_names hj "typ" (match jh_typ (m_jwm m) with DidCommForward => "https://didcomm.org/routing/2.0/forward" | _ => "application/didcomm-encrypted+json" end).
Proof.
  intros E rnd m sk keys text HS H. apply seal_ok in H. destruct H as [_ [_ [_ [_ [rs [a [H5 [H6 [_ [_ H9]]]]]]]]]].
  apply encrypt_types in H9; [exact H9|]. apply (sd_rust E). apply with_recipients_sendable; [exact HS|]. eapply seal_entries_good; eassumption.
Qed.
Example C41_encrypted_example : exists text, seal toy ex_rand (ex_jwe A256GCM) alice_key (Some ex_keys) = Ok text.
Proof. apply ex_seals. right. now left. Qed.

(** ** C30, C33: rotation data and attachments of sealed messages *)

Theorem C30_sealed_round_trip : forall E rnd m sk keys text i dest rsk sender signing from,
  env_ok E -> crypto_ok E -> rand_ok rnd -> sendable E m -> few_custom (m_jwm m) -> avoids envelope_names (dh_other (m_did m)) ->
  jh_typ (m_jwm m) <> DidCommJws -> dh_from (m_did m) = Some from ->
  seal E rnd m sk keys = Ok text -> nth_error (dh_to (m_did m)) i = Some dest -> String.length rsk = 32 ->
  known_key E dest (given_key keys i) (x_pub E rsk) -> known_key E from sender (x_pub E sk) -> others_closed E rnd m sk keys rsk i ->
  exists m', receive E text (Some rsk) sender signing = Ok m' /\ is_rotation m' = is_rotation m /\ get_prior m' = get_prior m.
Proof.
  intros E rnd m sk keys text i dest rsk sender signing from HE HC HR HS HF HA HN HFr HT HI HL HK HSK HB.
  destruct (C13_mixed_keys E rnd m sk keys text i dest rsk sender signing from HE HC HR HS HF HA HN HFr HT HI HL HK HSK HB) as [m' [H1 [H2 _]]].
  exists m'. split; [exact H1|]. destruct H2 as [_ [H _]]. assert (HP : dh_from_prior (m_did m) = dh_from_prior (m_did m')) by apply H.
  unfold get_prior, is_rotation. rewrite HP. split; reflexivity.
Qed.
Theorem C33_sealed_round_trip : forall E rnd m sk keys text i dest rsk sender signing from,
  env_ok E -> crypto_ok E -> rand_ok rnd -> sendable E m -> few_custom (m_jwm m) -> avoids envelope_names (dh_other (m_did m)) ->
  jh_typ (m_jwm m) <> DidCommJws -> dh_from (m_did m) = Some from ->
  seal E rnd m sk keys = Ok text -> nth_error (dh_to (m_did m)) i = Some dest -> String.length rsk = 32 ->
  known_key E dest (given_key keys i) (x_pub E rsk) -> known_key E from sender (x_pub E sk) -> others_closed E rnd m sk keys rsk i ->
  exists m', receive E text (Some rsk) sender signing = Ok m' /\ attachment_iter m' = attachment_iter m.
Proof.
  intros E rnd m sk keys text i dest rsk sender signing from HE HC HR HS HF HA HN HFr HT HI HL HK HSK HB.
  destruct (C13_mixed_keys E rnd m sk keys text i dest rsk sender signing from HE HC HR HS HF HA HN HFr HT HI HL HK HSK HB) as [m' [H1 [H2 _]]].
  exists m'. split; [exact H1|]. destruct H2 as [_ [_ [_ H]]]. symmetry. exact H.
Qed.

(** ** C51 *)

(** At most one custom member per header key: it does not matter in which order maps are iterated. *)
Theorem C51_few_order_free : forall E rnd m sk keys text R R' R2 f key, drt_ok R -> drt_ok R' -> sendable E m -> few_custom (m_jwm m) ->
  seal E rnd m sk keys = Ok text -> decrypt R R2 text f key = decrypt R' R2 text f key.
Proof. exact seal_order_free. Qed.
(** Several: in some iteration order an untouched envelope does not decrypt, with the right key. *)
Theorem C51_order_rejects : forall E rnd m sk keys text R2, data_bound (xc_enc E) (xc_dec E) -> data_bound (gcm_enc E) (gcm_dec E) ->
  sendable E m -> many_custom (m_jwm m) -> seal E rnd m sk keys = Ok text ->
  exists alg a order, jh_alg (m_jwm m) = Some alg /\ In (alg, a) wrap_table /\ (forall V (l : list (string * V)), Permutation (order V l) l) /\
    decrypt {| fnorm := fl E; hord := order |} R2 text (decrypter E a) seal_cek = Err EPlugCryptoFailure.
Proof.
  intros E rnd m sk keys text R2 BX BG HS HM HT. destruct (seal_order_rejects E rnd m sk keys text R2 BX BG HS HM HT) as [a [HA [HU HD]]].
  exists (wrap_name a), a, (fun _ l => rev l). split; [exact HA|]. split; [|split].
  - apply crypto_alg_of_table, crypto_alg_of_ok. now split.
  - intros V l. apply Permutation_sym, Permutation_rev.
  - exact HD.
Qed.
(** A cipher that satisfies the laws: the associated data are written before the text. *)
Definition framed (a : string) : string := srepeat (String.length a) "1" ++ "0" ++ a.
Definition frame_enc (k n a p : string) : option string := Some (framed a ++ p ++ srepeat 16 "t").
Definition frame_dec (k n a c : string) : option string :=
  if (String.eqb (take (String.length (framed a)) c) (framed a))
  then let p := drop (String.length (framed a)) c in Some (take (String.length p - 16) p) else None.
Lemma framed_inj : forall a b x y, framed a ++ x = framed b ++ y -> a = b.
Proof.
  intros a b x y H. unfold framed in H. rewrite !sapp_assoc in H.
  assert (HL : String.length a = String.length b).
  { revert H. generalize (String.length b) as j. generalize (String.length a) as i. intros i j. revert j.
    induction i as [|i IH]; intros [|j] H; cbn in H; [reflexivity|discriminate|discriminate|]. injection H as H. f_equal. now apply IH. }
  rewrite HL in H. apply sapp_inj_l in H. cbn in H. injection H as H. exact (proj1 (sapp_inj_len a b x y HL H)).
Qed.
Lemma frame_bound : data_bound frame_enc frame_dec.
Proof.
  intros k n a p c a' H HN. apply some_inj in H. subst c. unfold frame_dec. destruct (String.eqb_spec (take (String.length (framed a')) (framed a ++ p ++ srepeat 16 "t")) (framed a')) as [HE|]; [|reflexivity].
  exfalso. apply HN. symmetry. apply (framed_inj a a' (p ++ srepeat 16 "t") (drop (String.length (framed a')) (framed a ++ p ++ srepeat 16 "t"))).
  transitivity (take (String.length (framed a')) (framed a ++ p ++ srepeat 16 "t") ++ drop (String.length (framed a')) (framed a ++ p ++ srepeat 16 "t"));
    [symmetry; apply take_drop|now rewrite HE].
Qed.
Lemma frame_aead : aead_ok frame_enc frame_dec.
Proof.
  split; intros k n a p c H; apply some_inj in H; subst c.
  - unfold frame_dec. rewrite take_app, String.eqb_refl, drop_app. cbv zeta. rewrite slen_app, srepeat_length.
    replace (String.length p + 16 - 16) with (String.length p) by lia. now rewrite take_app.
  - rewrite !slen_app, srepeat_length. lia.
Qed.
Definition frame_env : env := {|
  x_pub := x_pub toy; x_dh := x_dh toy; xc_enc := frame_enc; xc_dec := frame_dec; gcm_enc := frame_enc; gcm_dec := frame_dec;
  cbc_enc := cbc_enc toy; sig_sign := sig_sign toy; sig_verify := sig_verify toy; resolve := resolve toy; fl := fl toy; ho := ho toy |}.
Definition ex_many : message := as_jwe (resolve toy) ex_plain XC20P (Some bob_key).
Example C51_example : data_bound (xc_enc frame_env) (xc_dec frame_env) /\ data_bound (gcm_enc frame_env) (gcm_dec frame_env) /\
  sendable frame_env ex_many /\ many_custom (m_jwm ex_many) /\ exists text, seal frame_env ex_rand ex_many alice_key (Some ex_keys) = Ok text.
Proof.
  split; [exact frame_bound|]. split; [exact frame_bound|]. split; [|split].
  - assert (HS : sendable toy ex_many).
    { apply (with_jwm_sendable toy ex_plain). exact ex_plain_sendable. apply (as_jwe_good (m_jwm ex_plain) XC20P bob_key). eapply sendable_header. exact ex_plain_sendable. }
    destruct HS as [S1 S2 S3 S4 S5 S6 S7]. constructor; assumption.
  - left. exists ex_jwk. split; [reflexivity|cbn; lia].
  - apply (seal_total frame_env ex_rand ex_many alice_key (Some ex_keys) XC20P).
    + destruct toy_crypto as [[D1 D2] _ _]. split; [split; [exact D1|exact D2]|exact frame_aead|exact frame_aead].
    + split; intros; eexists; reflexivity.
    + exact ex_rand_ok.
    + discriminate.
    + reflexivity.
    + apply srepeat_length.
    + discriminate.
    + discriminate.
    + intros l H. apply some_inj in H. subst l. reflexivity.
    + exact ex_keys_known.
Qed.

(** ** C52 *)

(** With A256GCM everything after the first 12 of the 24 iv bytes can be replaced by anything: every recipient accepts exactly the
    same, so the envelope as transmitted is not authenticated as a whole. *)
Theorem C52_iv_tail : forall E rnd m sk keys text iv', sendable E m -> jh_alg (m_jwm m) = Some "ECDH-1PU+A256KW" -> rand_ok rnd ->
  seal E rnd m sk keys = Ok text -> take 12 iv' = take 12 (sr_iv rnd) -> 12 <= String.length iv' ->
  exists pre post, text = print (JObj (pre ++ ("iv", jstr (b64_encode (sr_iv rnd))) :: post)) /\
    (iv' <> sr_iv rnd -> print (JObj (pre ++ ("iv", jstr (b64_encode iv')) :: post)) <> text) /\
    forall rsk sender signing, receive E (print (JObj (pre ++ ("iv", jstr (b64_encode iv')) :: post))) rsk sender signing = receive E text rsk sender signing.
Proof. exact seal_iv_tail. Qed.
Example C52_example : exists text, seal toy ex_rand (ex_jwe A256GCM) alice_key (Some ex_keys) = Ok text /\
  take 12 (take 12 (sr_iv ex_rand)) = take 12 (sr_iv ex_rand) /\ 12 <= String.length (take 12 (sr_iv ex_rand)) /\ take 12 (sr_iv ex_rand) <> sr_iv ex_rand.
Proof. destruct (ex_seals A256GCM) as [text H]; [right; now left|]. exists text. split; [exact H|]. split; [reflexivity|]. split; [cbn; lia|discriminate]. Qed.

Print Assumptions C12_seal_receive.
Print Assumptions C12_seal_total.
Print Assumptions C13_resolved_keys.
Print Assumptions C13_mixed_keys.
Print Assumptions C14_bad_arguments.
Print Assumptions C14_only_bad_arguments.
Print Assumptions C14_one_error.
Print Assumptions C15_entries.
Print Assumptions C16_constant_key.
Print Assumptions C16_key_value.
Print Assumptions C17_decrypt_sound.
Print Assumptions C17_tampering_xc20p.
Print Assumptions C17_tampering_a256gcm.
Print Assumptions C17_log_xc20p.
Print Assumptions C17_log_a256gcm.
Print Assumptions C18_forged_from.
Print Assumptions C18_skid_key_used.
Print Assumptions C19_anonymous_rejected.
Print Assumptions C20_cbc_never_seals.
Print Assumptions C20_cbc_error.
Print Assumptions C20_cbc_never_routes.
Print Assumptions C20_supported.
Print Assumptions C41_encrypted_types.
Print Assumptions C41_sealed_types.
Print Assumptions C30_sealed_round_trip.
Print Assumptions C33_sealed_round_trip.
Print Assumptions C51_few_order_free.
Print Assumptions C51_order_rejects.
Print Assumptions C52_iv_tail.
