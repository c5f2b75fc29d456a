(** Key derivation, recipient entries, panics and the external crypto path: C11 (encrypted envelopes), C22, C25, C38-C40, C46, C47. *)

From Coq Require Import Ascii String Arith NArith List Bool Permutation Sorted Lia.
From Verif Require Import Bytes BytesFacts Base64 Base64Facts Utf8 Utf8Facts Json JsonFacts Value ValueFacts Types Serde SerdeFacts
  Message Attach ChaCha Sha256 Envelope Spec SpecFacts DecodeFacts PlainFacts CodecFacts SetterFacts SpecText CryptoLaws Examples
  SpecSign HeaderFacts SignFacts SignFacts2 PropSign SpecSeal SealFacts SealFacts2 SealFacts3 PropSeal SpecKey KeyFacts.
Import ListNotations.
Local Open Scope string_scope.

(** ** Envelopes read from a text *)

(** The text is classified as encrypted, and both decoders that look at it see these envelopes. *)
Definition decodes (E : env) (text : string) (e e2 : jwe) : Prop :=
  get_message_type (rt E 0) text = Ok DidCommJwe /\ jwe_from_str (rt E 1) text = Some e /\ jwe_from_slice (rt E 2) text = Some e2.
Lemma decodes_good : forall E e, good_jwe e -> decodes E (jwe_json e) (re_jwe (rt E 1) e) (re_jwe (rt E 2) e).
Proof. intros E e H. split; [apply classify_jwe|]. split; apply jwe_round; exact H. Qed.
Lemma receive_by_jwe : forall E t t' sk spk gpk, get_message_type (rt E 0) t = Ok DidCommJwe -> get_message_type (rt E 0) t' = Ok DidCommJwe ->
  receive_jwe E t sk spk = receive_jwe E t' sk spk -> receive E t (Some sk) spk gpk = receive E t' (Some sk) spk gpk.
Proof. intros E t t' sk spk gpk H H' HR. unfold receive. rewrite H, H'. cbn [rbind is_jwe_type oerr]. now rewrite HR. Qed.
Lemma receive_from_jwe : forall E t sk spk gpk m, receive E t (Some sk) spk gpk = Ok m -> get_message_type (rt E 0) t = Ok DidCommJwe -> exists x, receive_jwe E t sk spk = Ok x.
Proof.
  intros E t sk spk gpk m H HT. unfold receive in H. rewrite HT in H. cbn [rbind is_jwe_type oerr] in H.
  destruct (receive_jwe E t sk spk) as [x| |]; [now exists x|discriminate|discriminate].
Qed.
Lemma receive_err_jwe : forall E t sk spk gpk x, get_message_type (rt E 0) t = Ok DidCommJwe -> receive_jwe E t sk spk = Err x -> receive E t (Some sk) spk gpk = Err x.
Proof. intros E t sk spk gpk x HT HR. unfold receive. rewrite HT. cbn [rbind is_jwe_type oerr]. now rewrite HR. Qed.

(** ** C11, encrypted envelopes *)

(** If the protected header has algorithm and sender key id, then the unprotected header has no influence. *)
Theorem C11_jwe_protected_wins : forall E e u h alg skid, good_jwe e -> opt_all good_header u -> je_protected e = Some h -> jh_alg h = Some alg -> jh_skid h = Some skid ->
  forall sk spk gpk, receive E (jwe_json (with_unprotected e u)) sk spk gpk = receive E (jwe_json e) sk spk gpk.
Proof. exact unprotected_ignored. Qed.
(** So attaching unprotected headers to a sealed envelope changes nothing. *)
Theorem C11_jwe_sealed : forall E rnd m sk keys text from u, sendable E m -> dh_from (m_did m) = Some from -> opt_all good_header u -> seal E rnd m sk keys = Ok text ->
  exists e, text = jwe_json e /\ good_jwe e /\ forall rsk spk gpk, receive E (jwe_json (with_unprotected e u)) rsk spk gpk = receive E text rsk spk gpk.
Proof.
  intros E rnd m sk keys text from u HS HF HU HT. apply seal_text in HT.
  destruct HT as [a [rs [sh [c [H1 [H2 [H3 [H4 [H5 [_ [H6 [H7 [H8 ->]]]]]]]]]]]]].
  pose proof (sealed_env_good (seal_header m) sh rs (take (String.length c - 16) c) (drop (String.length c - 16) c) (sr_iv rnd) (seal_header_good E m HS) H5 H6) as HG.
  eexists. split; [reflexivity|]. split; [exact HG|].
  apply (unprotected_ignored E _ u (seal_header m) (wrap_name a) from HG HU); [reflexivity| |exact HF]. rewrite seal_header_alg. exact H2.
Qed.
(** The unprotected header fills in what the protected one lacks, without any integrity protection: an envelope without
    protected algorithm is decrypted with the unprotected one. *)
Theorem C11_jwe_fallback : forall R e h u v (f : jwm_header -> option string), je_protected e = Some h -> je_unprotected e = Some u -> (forall x, f (re_jwm R x) = f x) ->
  f u = Some v -> jwe_get (re_jwe R e) f = Some match f h with Some w => w | None => v end.
Proof. intros R e h u v f HP HU HF HV. unfold jwe_get, re_jwe. cbn [je_protected je_unprotected]. rewrite HP, HU. cbn [option_map]. unfold fallback. rewrite !HF, HV. destruct (f h); reflexivity. Qed.
Example C11_jwe_example : exists text u, seal toy ex_rand (ex_jwe XC20P) alice_key (Some ex_keys) = Ok text /\ jh_alg u = Some "ECDH-1PU+A256KW" /\ good_header u.
Proof.
  destruct (ex_seals XC20P (or_introl eq_refl)) as [text HT]. exists text, (jh_with_alg jwm_default (Some "ECDH-1PU+A256KW")). split; [exact HT|]. split; [reflexivity|].
  apply good_alg; [reflexivity|exact default_good].
Qed.

(** ** C22 *)

Theorem C22_shape_never_succeeds : forall m x, mediated_shape m <> Ok x.
Proof. intros m x. rewrite shape_fails. discriminate. Qed.
(** Even for a message whose body is exactly a serialised [Mediated]. *)
Theorem C22_shape_of_mediated : forall m md, m_body m = ser_mediated md -> mediated_shape m = Err ESerde.
Proof. intros m md _. apply shape_fails. Qed.
Example C22_example : exists m md, m_body m = ser_mediated md /\ de_mediated (m_body m) = Some md.
Proof. exists (with_body ex_small (ser_mediated {| md_next := "did:toy:bob"; md_payload := "ab" |})), {| md_next := "did:toy:bob"; md_payload := "ab" |}. split; reflexivity. Qed.

(** ** C25 *)

(** Lengths as they should be: no panic, whatever the texts and keys contain. *)
Theorem C25_no_panic : forall E text sk spk gpk, dec_length (xc_dec E) -> dec_length (gcm_dec E) ->
  (forall a b, String.length a = 32 -> String.length b = 32 -> String.length (x_dh E a b) = 32) ->
  (forall k, sk = Some k -> 32 <= String.length k) -> (forall did key, known_key E did spk key -> 32 <= String.length key) ->
  (forall k e, jwe_from_str (rt E k) text = Some e -> envelope_lengths e) -> receive E text sk spk gpk <> Panic.
Proof. intros E text sk spk gpk DX DG DD L HK HL. apply receive_np. intros k HS. apply receive_jwe_np; auto. Qed.
(** Every envelope made by [seal] has these lengths, so nobody with keys of 32 bytes panics on it. *)
Theorem C25_sealed_no_panic : forall E rnd m sk keys text rsk spk gpk, env_ok E -> crypto_ok E -> dec_length (xc_dec E) -> dec_length (gcm_dec E) ->
  (forall a b, String.length a = 32 -> String.length b = 32 -> String.length (x_dh E a b) = 32) -> rand_ok rnd -> sendable E m -> seal E rnd m sk keys = Ok text ->
  32 <= String.length rsk -> (forall did key, known_key E did spk key -> 32 <= String.length key) -> receive E text (Some rsk) spk gpk <> Panic.
Proof.
  intros E rnd m sk keys text rsk spk gpk HE HC DX DG DD HR HS HT L HK. apply C25_no_panic; auto.
  - intros k H. now injection H as <-.
  - intros k e HJ. eapply seal_lengths; eassumption.
Qed.
(** Bad base64 in ciphertext or iv, or an iv of more than 24 bytes: panic, for every pair of keys of 32 bytes. *)
Theorem C25_bad_text_panics : forall E sk pk gpk ct iv tag, 32 <= String.length sk -> 32 <= String.length pk -> rust_string ct -> rust_string iv -> rust_string tag ->
  b64_decode ct = None \/
  (b64_decode ct <> None /\ b64_decode tag <> None /\
   (b64_decode iv = None \/ exists v, b64_decode iv = Some v /\ 24 < String.length v /\ String.length (x_dh E (take 32 sk) (take 32 pk)) = 32)) ->
  receive E (jwe_json (crafted ct iv tag)) (Some sk) (Some pk) gpk = Panic.
Proof. exact crafted_panics. Qed.
(** A recipient or sender key of less than 32 bytes: panic on every sealed envelope. *)
Theorem C25_short_key_panics : forall E rnd m sk keys text rsk spk key from gpk, sendable E m -> dh_from (m_did m) = Some from -> seal E rnd m sk keys = Ok text ->
  known_key E from spk key -> String.length rsk < 32 \/ String.length key < 32 -> receive E text (Some rsk) spk gpk = Panic.
Proof. exact seal_short_key. Qed.
(** A sender that wraps a content key of another length than 32 makes the recipient panic. *)
Theorem C25_wrong_cek_panics : forall E m rr sk rsk dest cek pk spk gpk r ct tag iv from, env_ok E -> crypto_ok E -> sendable E m -> String.length sk = 32 -> String.length rsk = 32 ->
  String.length (rr_esk rr) = 32 -> String.length iv = 24 -> dh_from (m_did m) = Some from -> known_key E from spk (x_pub E sk) -> known_key E dest pk (x_pub E rsk) ->
  encrypt_cek E rr m sk dest cek pk = Ok r -> String.length cek <> 32 ->
  receive E (jwe_json (sealed_env (seal_header m) (None, Some [r]) ct tag iv)) (Some rsk) spk gpk = Panic.
Proof.
  intros E m rr sk rsk dest cek pk spk gpk r ct tag iv from HE HC HS L1 L2 L3 L4 HF HK HK2 HR HL.
  assert (HG : good_jwe (sealed_env (seal_header m) (None, Some [r]) ct tag iv)).
  { apply (sealed_env_good _ _ [r]); [now apply (seal_header_good E)|now left|]. constructor; [eapply encrypt_cek_good; exact HR|constructor]. }
  destruct (encrypt_cek_ok _ _ _ _ _ _ _ _ HR) as [a [_ [_ [HU [HA _]]]]]. pose proof HC as [[D1 D2] C1 C2].
  apply receive_panic; [apply classify_jwe|].
  assert (GA : jwe_get (re_jwe (rt E 1) (sealed_env (seal_header m) (None, Some [r]) ct tag iv)) jh_alg = Some (wrap_name a)).
  { rewrite re_sealed_env. apply jwe_get_env. cbn [re_jwm jh_alg]. now rewrite seal_header_alg. }
  assert (GS : jwe_get (re_jwe (rt E 1) (sealed_env (seal_header m) (None, Some [r]) ct tag iv)) jh_skid = Some from).
  { rewrite re_sealed_env. apply jwe_get_env. exact HF. }
  destruct (jwe_round (rt E 1) _ HG) as [_ J1]. destruct (jwe_round (rt E 2) _ HG) as [J2 _].
  apply (seal_wrong_cek E _ rsk spk _ from (x_pub E sk) [] (re_recipient (rt E 1) r) [] (wrap_name a) a
           (re_jwm (rt E 2) (seal_header m)) ct (b64_encode tag) tag iv cek J1 GA) with (e2 := re_jwe (rt E 2) (sealed_env (seal_header m) (None, Some [r]) ct tag iv)).
  - apply crypto_alg_of_table, crypto_alg_of_ok. auto.
  - exact GS.
  - exact HK.
  - lia.
  - rewrite D1 by exact L1. lia.
  - reflexivity.
  - constructor.
  - eapply cek_round; [exact HC|now apply env_drt|exact L1|exact L2|exact L3|exact HR|exact HK2|rewrite GA; now symmetry|exact GS|exact HK].
  - exact HL.
  - exact J2.
  - reflexivity.
  - reflexivity.
  - apply b64_decode_encode.
  - apply b64_decode_encode.
  - apply b64_decode_encode.
  - rewrite L4. destruct a; cbn [nonce_len]; lia.
Qed.
Lemma toy_dec_length : dec_length toy_dec.
Proof.
  intros k n a c p H. unfold toy_dec in H. destruct (Nat.ltb_spec (String.length c) 16); [discriminate|]. destruct (String.eqb _ _); [|discriminate].
  apply some_inj in H. subst p. rewrite take_length by lia. lia.
Qed.
Lemma sxor_length : forall a b, String.length a = String.length b -> String.length (sxor a b) = String.length a.
Proof. induction a as [|x a IH]; intros [|y b] H; try discriminate; [reflexivity|]. cbn [sxor String.length] in *. injection H as H. now rewrite IH. Qed.
(** The second recipient's key on an envelope for two, with the keys that the resolver knows: no panic. *)
Example C25_example : exists text, seal toy ex_rand (ex_jwe XC20P) alice_key (Some ex_keys) = Ok text /\ forall sk spk, 32 <= String.length sk -> 32 <= String.length spk ->
  receive toy text (Some sk) (Some spk) None <> Panic.
Proof.
  destruct (ex_seals XC20P (or_introl eq_refl)) as [text HT]. exists text. split; [exact HT|]. intros sk spk L1 L2.
  apply (C25_sealed_no_panic toy ex_rand (ex_jwe XC20P) alice_key (Some ex_keys) text sk (Some spk) None).
  - exact toy_env.
  - exact toy_crypto.
  - exact toy_dec_length.
  - exact toy_dec_length.
  - intros a b HA HB. change (x_dh toy) with sxor. rewrite sxor_length by congruence. exact HA.
  - exact ex_rand_ok.
  - apply ex_jwe_sendable.
  - exact HT.
  - exact L1.
  - intros did key [H|[H _]]; [now injection H as <-|discriminate].
Qed.
Example C25_panic_example : receive toy (jwe_json (crafted "?" "" "")) (Some bob_key) (Some alice_key) None = Panic /\
  receive toy (jwe_json (crafted "" "=" "")) (Some bob_key) (Some alice_key) None = Panic /\
  receive toy (jwe_json (crafted "" "MDEyMzQ1Njc4OTAxMjM0NTY3ODkwMTIzNA" "")) (Some bob_key) (Some alice_key) None = Panic.
Proof.
  assert (LB : 32 <= String.length bob_key) by (unfold bob_key; rewrite srepeat_length; lia). assert (LA : 32 <= String.length alice_key) by (unfold alice_key; rewrite srepeat_length; lia).
  split; [|split].
  - apply C25_bad_text_panics; [exact LB|exact LA|reflexivity|reflexivity|reflexivity|]. left. reflexivity.
  - apply C25_bad_text_panics; [exact LB|exact LA|reflexivity|reflexivity|reflexivity|]. right. split; [discriminate|]. split; [discriminate|]. left. reflexivity.
  - apply C25_bad_text_panics; [exact LB|exact LA|reflexivity|reflexivity|reflexivity|]. right. split; [discriminate|]. split; [discriminate|]. right.
    exists "0123456789012345678901234". split; [reflexivity|]. split; [cbn; lia|reflexivity].
Qed.
Definition ex_rr : rec_rand := sr_rec ex_rand 0.
Lemma ex_entry : forall cek, exists r, encrypt_cek toy ex_rr (ex_jwe XC20P) alice_key "did:toy:bob" cek (Some bob_key) = Ok r.
Proof.
  intros cek. eexists. apply (encrypt_cek_total toy ex_rr (ex_jwe XC20P) alice_key "did:toy:bob" cek (Some bob_key) XC20P bob_key
    (cek ++ toy_tag (kek_of (x_dh toy (take 32 (rr_esk ex_rr)) (take 32 bob_key)) (x_dh toy (take 32 alice_key) (take 32 bob_key)) XC20P) (rr_iv ex_rr 24) "" cek)).
  - discriminate.
  - reflexivity.
  - now left.
  - unfold bob_key. rewrite srepeat_length. lia.
  - unfold alice_key. rewrite srepeat_length. lia.
  - apply (Nat.eq_le_incl 32). symmetry. apply srepeat_length.
  - apply srepeat_length.
  - reflexivity.
  - rewrite slen_app. unfold toy_tag. rewrite take_length; [lia|]. rewrite sha256_length. lia.
Qed.
Example C25_cek_example : exists r, encrypt_cek toy ex_rr (ex_jwe XC20P) alice_key "did:toy:bob" "short" (Some bob_key) = Ok r /\
  receive toy (jwe_json (sealed_env (seal_header (ex_jwe XC20P)) (None, Some [r]) "c" "t" (srepeat 24 "i"))) (Some bob_key) (Some alice_key) None = Panic.
Proof.
  destruct (ex_entry "short") as [r HR]. exists r. split; [exact HR|].
  apply (C25_wrong_cek_panics toy (ex_jwe XC20P) ex_rr alice_key bob_key "did:toy:bob" "short" (Some bob_key) (Some alice_key) None r "c" "t" (srepeat 24 "i") "did:toy:alice").
  - exact toy_env.
  - exact toy_crypto.
  - apply ex_jwe_sendable.
  - apply srepeat_length.
  - apply srepeat_length.
  - apply srepeat_length.
  - apply srepeat_length.
  - reflexivity.
  - now left.
  - now left.
  - exact HR.
  - discriminate.
Qed.

(** ** C38 *)

(** The receiver sees the ciphertext bytes and the sender; a protected key id wins over the sender. *)
Theorem C38_external_received : forall E R rnd m c, sendable E m -> dh_from (m_did m) <> None \/ jh_skid (m_jwm m) <> None -> exists text e,
  seal_pre_encrypted rnd m c = Ok text /\ received_as_jwe R text = Some e /\ jwe_payload e = Ok c /\ jwe_iv e = Ok rnd /\
  jwe_get e jh_skid = match jh_skid (m_jwm m) with Some s => Some s | None => dh_from (m_did m) end.
Proof. exact external_received. Qed.
(** Without a sender the envelope is still produced, and refused by the receiving side. *)
Theorem C38_external_refused : forall E R rnd m c, sendable E m -> dh_from (m_did m) = None -> jh_skid (m_jwm m) = None -> exists text,
  seal_pre_encrypted rnd m c = Ok text /\ received_as_jwe R text = None.
Proof. exact external_refused. Qed.
(** The exported payload is read back as the message. *)
Theorem C38_export_round_trip : forall E k rnd m, env_ok E -> sendable E m -> exists payload m',
  export_for_encryption rnd m = Ok (rnd, payload) /\ receive_external_crypto (rt E k) payload = Ok m' /\ same_message m m' /\ flags_reset m'.
Proof.
  intros E k rnd m HE HS. exists (message_json m), (re_message (rt E k) m). unfold export_for_encryption, receive_external_crypto. rewrite b64_decode_encode. cbn [oerr rbind].
  split; [reflexivity|]. split; [now rewrite (sendable_from_slice E k m HS)|]. split; [now apply re_message_same|apply re_message_flags].
Qed.
(** Export, encrypt with any cipher outside, wrap, unwrap, decrypt outside: the message arrives if the cipher does not depend
    on the iv that travels with the envelope. *)
Theorem C38_external_round_trip : forall E k R rnd1 rnd2 m (enc dec : string -> string -> string), env_ok E -> sendable E m -> dh_from (m_did m) <> None ->
  (forall iv p, dec iv (enc iv p) = p) -> exists payload text e c m',
    export_for_encryption rnd1 m = Ok (rnd1, payload) /\ seal_pre_encrypted rnd2 m (enc rnd1 payload) = Ok text /\
    received_as_jwe R text = Some e /\ jwe_payload e = Ok c /\ receive_external_crypto (rt E k) (dec rnd1 c) = Ok m' /\ same_message m m'.
Proof.
  intros E k R rnd1 rnd2 m enc dec HE HS HF HD. destruct (C38_export_round_trip E k rnd1 m HE HS) as [payload [m' [H1 [H2 [H3 _]]]]].
  destruct (external_received E R rnd2 m (enc rnd1 payload) HS (or_introl HF)) as [text [e [G1 [G2 [G3 _]]]]].
  exists payload, text, e, (enc rnd1 payload), m'. repeat (split; [assumption|]). split; [now rewrite HD|exact H3].
Qed.
(** But the iv in the envelope is not the one that was handed out for encryption: they are equal only if two independent
    draws of 24 bytes coincide. *)
Theorem C38_iv_unrelated : forall E R rnd1 rnd2 m c iv payload text e, sendable E m -> export_for_encryption rnd1 m = Ok (iv, payload) ->
  seal_pre_encrypted rnd2 m c = Ok text -> received_as_jwe R text = Some e -> jwe_iv e = Ok iv -> rnd1 = rnd2.
Proof.
  intros E R rnd1 rnd2 m c iv payload text e HS HX HT HR HI. unfold export_for_encryption in HX. rewrite b64_decode_encode in HX. cbn [oerr rbind] in HX. apply ok_inj in HX. injection HX as <- _.
  destruct (external_round E R rnd2 m c HS) as [text' [u [H1 [H2 [H3 _]]]]]. rewrite HT in H1. apply ok_inj in H1. subst text'.
  unfold received_as_jwe in HR. rewrite H3 in HR. destruct (jwe_get _ jh_skid); [|discriminate]. apply some_inj in HR. subst e.
  unfold jwe_iv, re_jwe, jwe_new in HI. cbn [je_iv] in HI. rewrite b64_decode_encode in HI. apply ok_inj in HI. congruence.
Qed.
Example C38_example : sendable toy ex_plain /\ dh_from (m_did ex_plain) <> None /\ exists e text, seal_pre_encrypted (srepeat 24 "2") ex_plain "c" = Ok text /\
  export_for_encryption (srepeat 24 "1") ex_plain = Ok (srepeat 24 "1", message_json ex_plain) /\ received_as_jwe (rt toy 0) text = Some e /\ jwe_iv e = Ok (srepeat 24 "2").
Proof.
  split; [exact ex_plain_sendable|]. split; [discriminate|].
  destruct (C38_external_received toy (rt toy 0) (srepeat 24 "2") ex_plain "c" ex_plain_sendable) as [text [e [H1 [H2 [_ [H3 _]]]]]]; [left; discriminate|].
  exists e, text. split; [exact H1|]. split; [|split; [exact H2|exact H3]]. unfold export_for_encryption. rewrite b64_decode_encode. reflexivity.
Qed.
Example C38_refused_example : sendable toy (set_from_none ex_small) /\ dh_from (m_did (set_from_none ex_small)) = None /\ jh_skid (m_jwm (set_from_none ex_small)) = None.
Proof. split; [send_msg|]. split; reflexivity. Qed.

(** ** C39 *)

Theorem C39_get_iv_seal : forall R E rnd m sk keys text x, rand_ok rnd -> seal E rnd m sk keys = Ok text -> get_iv R text <> Ok x.
Proof. exact get_iv_seal. Qed.
Theorem C39_get_iv_encrypt : forall R iv m f cek text x, String.length iv = 24 -> encrypt iv m f cek = Ok text -> get_iv R text <> Ok x.
Proof. exact get_iv_encrypt. Qed.
Theorem C39_get_iv_external : forall R rnd m c text x, String.length rnd = 24 -> seal_pre_encrypted rnd m c = Ok text -> get_iv R text <> Ok x.
Proof. exact get_iv_external. Qed.
(** It wants the base64 text itself to have 24 characters, and returns that text undecoded. *)
Example C39_example : (exists text, rand_ok ex_rand /\ seal toy ex_rand (ex_jwe A256GCM) alice_key (Some ex_keys) = Ok text) /\
  get_iv (rt toy 0) "{""iv"":""MDEyMzQ1Njc4OTAxMjM0NTY3""}" = Ok "MDEyMzQ1Njc4OTAxMjM0NTY3".
Proof.
  split; [|vm_compute; reflexivity]. destruct (ex_seals A256GCM (or_intror (or_introl eq_refl))) as [text HT]. exists text. split; [exact ex_rand_ok|exact HT].
Qed.

(** ** C40 *)

(** The derived key is SHA-256 of the Concat KDF input of NIST SP 800-56A for one round and 256 bits. *)
Theorem C40_kdf_correct : forall z alg u v k, concat_kdf z alg u v = Ok k <-> short alg /\ short (info u) /\ short (info v) /\ k = sha256 (kdf_text z alg (info u) (info v)).
Proof.
  intros z alg u v k. unfold concat_kdf. split.
  - intros H. destruct (kdf_input z alg u v) as [x| |] eqn:EX; [|discriminate|discriminate]. cbn [rbind] in H. apply ok_inj in H. apply kdf_input_spec in EX.
    destruct EX as [H1 [H2 [H3 ->]]]. auto.
  - intros [H1 [H2 [H3 ->]]]. assert (HX : kdf_input z alg u v = Ok (kdf_text z alg (info u) (info v))) by (apply kdf_input_spec; auto). now rewrite HX.
Qed.
(** The hashed text determines algorithm name, both infos, and the secret among secrets of one length. *)
Theorem C40_domain_separation : forall z z' alg alg' u u' v v' x, kdf_input z alg u v = Ok x -> kdf_input z' alg' u' v' = Ok x -> String.length z = String.length z' ->
  z = z' /\ alg = alg' /\ info u = info u' /\ info v = info v'.
Proof.
  intros z z' alg alg' u u' v v' x H H' HL. apply kdf_input_spec in H, H'. destruct H as [S1 [S2 [S3 ->]]]. destruct H' as [T1 [T2 [T3 HX]]].
  apply kdf_text_inj in HX; auto.
Qed.
(** Without the length condition it does not. *)
Theorem C40_secret_length_refuted : exists z z' alg alg' x, z <> z' /\ kdf_input z alg None None = Ok x /\ kdf_input z' alg' None None = Ok x.
Proof.
  exists "", (u32 4), (u32 0), "". eexists. split; [discriminate|]. split; [reflexivity|]. vm_compute. reflexivity.
Qed.
(** Sender and recipient derive the same key. *)
Theorem C40_agreement : forall E sk rsk esk dest skid pk pk' alg, dh_ok E -> String.length sk = 32 -> String.length rsk = 32 -> String.length esk = 32 -> short alg ->
  known_key E dest pk (x_pub E rsk) -> known_key E skid pk' (x_pub E sk) ->
  let key := sha256 (kdf_text (x_dh E esk (x_pub E rsk) ++ x_dh E sk (x_pub E rsk)) alg "" "") in
  shared_for E esk dest pk = Ok (x_dh E esk (x_pub E rsk)) /\ generate_kek E dest sk (x_dh E esk (x_pub E rsk)) alg pk = Ok key /\
  generate_kek E skid rsk (x_dh E rsk (x_pub E esk)) alg pk' = Ok key.
Proof.
  intros E sk rsk esk dest skid pk pk' alg HD L1 L2 L3 HA K1 K2 key. destruct (kek_agreement E sk rsk esk dest skid pk pk' alg HD L1 L2 L3 K1 K2) as [ze [H1 [H2 H3]]].
  destruct HD as [D1 D2]. rewrite <- (D2 esk rsk) in H2, H3 by assumption. rewrite <- (D2 esk rsk) by assumption. subst ze. split; [exact H1|].
  assert (HG : generate_kek E dest sk (x_dh E esk (x_pub E rsk)) alg pk = Ok key).
  { unfold generate_kek. assert (HS : shared_for E sk dest pk = Ok (x_dh E sk (x_pub E rsk))).
    { apply shared_for_ok. exists (x_pub E rsk). assert (HT : forall s, String.length s = 32 -> take 32 s = s) by (intros s HS; apply take_all; lia).
      rewrite !HT by auto. rewrite D1 by assumption. repeat split; auto; lia. }
    rewrite HS. cbn [rbind]. apply C40_kdf_correct. split; [exact HA|]. split; [reflexivity|]. split; [reflexivity|reflexivity]. }
  split; [exact HG|]. rewrite <- H3. exact HG.
Qed.
Example C40_example : short "ECDH-1PU+A256KW" /\ dh_ok toy /\ known_key toy "did:toy:bob" None (x_pub toy bob_key) /\ known_key toy "did:toy:alice" (Some alice_key) (x_pub toy alice_key).
Proof.
  split; [reflexivity|]. split; [apply toy_crypto|]. split; [|now left]. right. split; [reflexivity|]. exists (toy_doc bob_key). split; reflexivity.
Qed.

(** ** C46 *)

(** Two envelopes that share header, ciphertext, iv and tag and contain the entry [r]: if what precedes [r] fails cleanly, the
    outcome is the same, whatever else the lists contain. *)
Theorem C46_other_entries : forall E text text' sk spk gpk e e' e2 e2' pre r post pre' post', decodes E text e e2 -> decodes E text' e' e2' ->
  same_but_entries e e' -> same_but_entries e2 e2' ->
  jwe_recipients e = Some (pre ++ r :: post)%list -> jwe_recipients e' = Some (pre' ++ r :: post')%list ->
  Forall (fun x => exists err, decrypt_cek E e sk x spk = Err err) (pre ++ pre')%list -> (forall err, decrypt_cek E e sk r spk <> Err err) ->
  receive E text (Some sk) spk gpk = receive E text' (Some sk) spk gpk.
Proof.
  intros E text text' sk spk gpk e e' e2 e2' pre r post pre' post' [T1 [J1 J2]] [T1' [J1' J2']] S1 S2 HR HR' HF HN.
  apply receive_by_jwe; [exact T1|exact T1'|]. eapply receive_other_entries; eassumption.
Qed.
(** Entries with nonce and wrapped key of the right length never panic: whoever they are for, they fail cleanly or give a key. *)
Theorem C46_clean_failure : forall E e sk r spk, 32 <= String.length sk -> (forall did key, known_key E did spk key -> 32 <= String.length key) ->
  (forall alg a, jwe_get e jh_alg = Some alg -> In (alg, a) wrap_table -> entry_lengths a r) -> decrypt_cek E e sk r spk <> Panic.
Proof. exact decrypt_cek_np. Qed.
(** An entry with a nonce of the wrong length in front: panic, although the recipient's own entry may follow. *)
Theorem C46_bad_entry_panics : forall E text sk spk gpk e e2 pre r post alg a skid key ek epub t iv sealed t3 tag, decodes E text e e2 ->
  jwe_get e jh_alg = Some alg -> In (alg, a) wrap_table -> jwe_get e jh_skid = Some skid -> known_key E skid spk key -> 32 <= String.length sk -> 32 <= String.length key ->
  jwe_recipients e = Some (pre ++ r :: post)%list -> Forall (fun x => exists err, decrypt_cek E e sk x spk = Err err) pre ->
  jk_epk (rc_header r) = Some ek -> b64_decode (ep_x ek) = Some epub -> String.length epub = 32 ->
  map_get "iv" (jk_other (rc_header r)) = Some t -> b64_decode t = Some iv -> String.length iv <> nonce_len a ->
  b64_decode (rc_encrypted_key r) = Some sealed -> map_get "tag" (jk_other (rc_header r)) = Some t3 -> b64_decode t3 = Some tag ->
  receive E text (Some sk) spk gpk = Panic.
Proof.
  intros E text sk spk gpk e e2 pre r post alg a skid key ek epub t iv sealed t3 tag [T1 [J1 J2]] HA HI HS HK L1 L2 HR HF H1 H2 H3 H4 H5 H6 H7 H8 H9.
  apply receive_panic; [exact T1|]. eapply bad_entry_receive; [exact J1|exact HA|exact HI|exact HS|exact HK|exact L1|exact L2|exact HR|exact HF|].
  exact (bad_entry_panics E e sk r spk alg a skid key ek epub t iv (rc_encrypted_key r) sealed t3 tag HA HI HS HK L1 L2 H1 H2 H3 H4 H5 H6 eq_refl H7 H8 H9).
Qed.
Definition ex_garbage : recipient :=
  {| rc_header := {| jk_kty := None; jk_use := None; jk_crv := None; jk_key_ops := []; jk_alg := NoneAlg; jk_kid := Some "x"; jk_epk := None; jk_other := [] |}; rc_encrypted_key := "" |}.
Definition ex_long_iv : recipient :=
  {| rc_header := {| jk_kty := None; jk_use := None; jk_crv := None; jk_key_ops := []; jk_alg := NoneAlg; jk_kid := Some "x";
       jk_epk := Some {| ep_kty := "OKP"; ep_crv := "X25519"; ep_x := b64_encode bob_key; ep_y := None |}; jk_other := [("iv", ""); ("tag", "")] |}; rc_encrypted_key := "" |}.
Definition ex_env (l : list recipient) : jwe := sealed_env (seal_header (ex_jwe XC20P)) (None, Some l) "c" "t" (srepeat 24 "i").
Lemma ex_env_good : forall l, Forall good_rc l -> good_jwe (ex_env l).
Proof. intros l H. apply (sealed_env_good _ _ l); [apply (seal_header_good toy); apply ex_jwe_sendable|now left|exact H]. Qed.
Lemma ex_garbage_good : good_rc ex_garbage.
Proof. split; [repeat constructor|]. split; [apply NoDup_nil|intros k []]. Qed.
Lemma ex_long_iv_good : good_rc ex_long_iv.
Proof.
  split; [|split].
  - repeat (constructor; [first [reflexivity|apply b64_utf8]|]). constructor.
  - cbn. constructor; [intros [H|[]]; discriminate|]. constructor; [intros []|constructor].
  - avoid_tac.
Qed.
(** The entry for bob alone, and between two entries that bob cannot use: same outcome. *)
Example C46_example : exists r, encrypt_cek toy ex_rr (ex_jwe XC20P) alice_key "did:toy:bob" seal_cek (Some bob_key) = Ok r /\
  receive toy (jwe_json (ex_env [r])) (Some bob_key) (Some alice_key) None = receive toy (jwe_json (ex_env [ex_garbage; r; ex_garbage])) (Some bob_key) (Some alice_key) None.
Proof.
  destruct (ex_entry seal_cek) as [r HR]. exists r. split; [exact HR|]. pose proof (encrypt_cek_good _ _ _ _ _ _ _ _ HR) as HG.
  assert (G1 : good_jwe (ex_env [r])) by (apply ex_env_good; constructor; [exact HG|constructor]).
  assert (G2 : good_jwe (ex_env [ex_garbage; r; ex_garbage])) by (apply ex_env_good; repeat (constructor; [first [exact HG|exact ex_garbage_good]|]); constructor).
  assert (GA : jwe_get (re_jwe (rt toy 1) (ex_env [r])) jh_alg = Some (wrap_name XC20P)) by reflexivity.
  assert (GS : jwe_get (re_jwe (rt toy 1) (ex_env [r])) jh_skid = Some "did:toy:alice") by reflexivity.
  apply (C46_other_entries toy _ _ bob_key (Some alice_key) None _ _ _ _ [] (re_recipient (rt toy 1) r) [] [re_recipient (rt toy 1) ex_garbage] [re_recipient (rt toy 1) ex_garbage]
    (decodes_good toy _ G1) (decodes_good toy _ G2)).
  - repeat split.
  - repeat split.
  - reflexivity.
  - reflexivity.
  - constructor; [|constructor]. eexists. unfold decrypt_cek. rewrite GA, GS. cbn [oerr rbind re_recipient ex_garbage rc_header re_jwk jk_epk]. reflexivity.
  - intros err HX. rewrite (cek_round toy (rt toy 1) _ (ex_jwe XC20P) ex_rr alice_key bob_key "did:toy:bob" seal_cek (Some bob_key) (Some alice_key) r "did:toy:alice") in HX.
    + discriminate.
    + exact toy_crypto.
    + apply env_drt. exact toy_env.
    + apply srepeat_length.
    + apply srepeat_length.
    + apply srepeat_length.
    + exact HR.
    + now left.
    + exact GA.
    + exact GS.
    + now left.
Qed.
(** Bob's entry, preceded by one with an empty nonce. *)
Example C46_panic_example : exists r, encrypt_cek toy ex_rr (ex_jwe XC20P) alice_key "did:toy:bob" seal_cek (Some bob_key) = Ok r /\
  receive toy (jwe_json (ex_env [ex_long_iv; r])) (Some bob_key) (Some alice_key) None = Panic.
Proof.
  destruct (ex_entry seal_cek) as [r HR]. exists r. split; [exact HR|]. pose proof (encrypt_cek_good _ _ _ _ _ _ _ _ HR) as HG.
  assert (G1 : good_jwe (ex_env [ex_long_iv; r])) by (apply ex_env_good; constructor; [exact ex_long_iv_good|]; constructor; [exact HG|constructor]).
  apply (C46_bad_entry_panics toy _ bob_key (Some alice_key) None _ _ [] (re_recipient (rt toy 1) ex_long_iv) [re_recipient (rt toy 1) r] "ECDH-1PU+XC20PKW" XC20P "did:toy:alice" alice_key
    {| ep_kty := "OKP"; ep_crv := "X25519"; ep_x := b64_encode bob_key; ep_y := None |} bob_key "" "" "" "" "" (decodes_good toy _ G1)).
  - reflexivity.
  - right. now left.
  - reflexivity.
  - now left.
  - unfold bob_key. rewrite srepeat_length. lia.
  - unfold alice_key. rewrite srepeat_length. lia.
  - reflexivity.
  - constructor.
  - reflexivity.
  - apply b64_decode_encode.
  - apply srepeat_length.
  - reflexivity.
  - reflexivity.
  - cbn. lia.
  - reflexivity.
  - reflexivity.
  - reflexivity.
Qed.

(** ** C47 *)

(** Neither [recipients] nor a complete top-level entry: the content key is the raw X25519 secret of the two static keys. *)
Theorem C47_static_secret : forall E text sk spk es e e2, decodes E text e e2 -> parse text = Some (JObj es) -> ~ In "recipients" (map fst es) ->
  ~ In "header" (map fst es) \/ ~ In "encrypted_key" (map fst es) ->
  (exists m, receive_jwe E text sk spk = Ok m) <->
  exists alg a key m, jwe_get e jh_alg = Some alg /\ In (alg, a) wrap_table /\ sender_key_of E e spk key /\ 32 <= String.length sk /\ 32 <= String.length key /\
    decrypt (rt E 2) (rt E 3) text (decrypter E a) (x_dh E (take 32 sk) (take 32 key)) = Ok m.
Proof.
  intros E text sk spk es e e2 [_ [J1 _]] HP HR HN. pose proof (no_entries _ _ _ _ HP J1 HR HN) as HE. split.
  - intros [t H]. apply (receive_static E text sk spk e t J1 HE) in H. destruct H as [alg [a [key [m [H1 [H2 [H3 [H4 [H5 [H6 _]]]]]]]]]]. exists alg, a, key, m. repeat (split; [assumption|]). exact H6.
  - intros [alg [a [key [m [H1 [H2 [H3 [H4 [H5 H6]]]]]]]]]. exists (message_json m). apply (receive_static E text sk spk e _ J1 HE). exists alg, a, key, m. repeat (split; [assumption|]). reflexivity.
Qed.
(** Such an envelope, made with the static secret, is received. *)
Theorem C47_static_round_trip : forall E a iv m sk rsk spk gpk from text, env_ok E -> crypto_ok E -> sendable E m -> few_custom (m_jwm m) ->
  avoids envelope_names (dh_other (m_did m)) -> jh_typ (m_jwm m) <> DidCommJws -> jh_alg (m_jwm m) = Some (wrap_name a) -> usable a ->
  m_recipients m = None -> m_flat_jwe m = false -> dh_from (m_did m) = Some from -> String.length sk = 32 -> String.length rsk = 32 ->
  known_key E from spk (x_pub E sk) -> encrypt iv m (encryptor E a) (x_dh E sk (x_pub E rsk)) = Ok text ->
  exists m', receive E text (Some rsk) spk gpk = Ok m' /\ same_message m m'.
Proof.
  intros E a iv m sk rsk spk gpk from text HE HC HS HF HA HTy HAl HU HR HFl HFr L1 L2 HK HEn.
  exists (re_message (rt E 9) (re_message (rt E 3) m)). split; [exact (static_round_trip E a iv m sk rsk spk gpk from text HE HC HS HF HA HTy HAl HU HR HFl HFr L1 L2 HK HEn)|].
  eapply same_message_trans; apply re_message_same; exact HE.
Qed.
(** An empty list is an error. *)
Theorem C47_empty_list : forall E text sk spk gpk e e2, decodes E text e e2 -> jwe_recipients e = Some [] ->
  (forall m, receive E text (Some sk) spk gpk <> Ok m) /\
  (32 <= String.length sk -> (forall key, sender_key_of E e spk key -> 32 <= String.length key) -> exists x, receive E text (Some sk) spk gpk = Err x).
Proof.
  intros E text sk spk gpk e e2 [T1 [J1 _]] HR. destruct (receive_empty E text sk spk e J1 HR) as [H1 H2]. split.
  - intros m H. destruct (receive_from_jwe _ _ _ _ _ _ H T1) as [x HX]. now elim (H1 x).
  - intros L HK. destruct (H2 L HK) as [x HX]. exists x. now apply receive_err_jwe.
Qed.
Example C47_example : exists text, encrypt (srepeat 24 "i") (ex_jwe XC20P) (encryptor toy XC20P) (x_dh toy alice_key bob_key) = Ok text /\
  m_recipients (ex_jwe XC20P) = None /\ known_key toy "did:toy:alice" None (x_pub toy alice_key).
Proof.
  eexists. split; [|split; [reflexivity|right; split; [reflexivity|]; exists (toy_doc alice_key); split; reflexivity]].
  eapply (encrypt_total (srepeat 24 "i") (ex_jwe XC20P) _ _ _ (message_json (ex_jwe XC20P) ++ _)); [reflexivity| | |reflexivity].
  - unfold encryptor, check_nonce. change (String.length (srepeat 24 "i") <? 24)%nat with false. cbn [rbind]. rewrite !exact_len_ok by reflexivity. cbn [rbind]. reflexivity.
  - rewrite slen_app. unfold toy_tag. rewrite take_length; [lia|]. rewrite sha256_length. lia.
Qed.
Example C47_empty_example : decodes toy (jwe_json (ex_env [])) (re_jwe (rt toy 1) (ex_env [])) (re_jwe (rt toy 2) (ex_env [])) /\ jwe_recipients (re_jwe (rt toy 1) (ex_env [])) = Some [].
Proof. split; [apply decodes_good, ex_env_good; constructor|reflexivity]. Qed.

Print Assumptions C11_jwe_protected_wins.
Print Assumptions C11_jwe_sealed.
Print Assumptions C11_jwe_fallback.
Print Assumptions C22_shape_never_succeeds.
Print Assumptions C22_shape_of_mediated.
Print Assumptions C25_no_panic.
Print Assumptions C25_sealed_no_panic.
Print Assumptions C25_bad_text_panics.
Print Assumptions C25_short_key_panics.
Print Assumptions C25_wrong_cek_panics.
Print Assumptions C38_external_received.
Print Assumptions C38_external_refused.
Print Assumptions C38_export_round_trip.
Print Assumptions C38_external_round_trip.
Print Assumptions C38_iv_unrelated.
Print Assumptions C39_get_iv_seal.
Print Assumptions C39_get_iv_encrypt.
Print Assumptions C39_get_iv_external.
Print Assumptions C40_kdf_correct.
Print Assumptions C40_domain_separation.
Print Assumptions C40_secret_length_refuted.
Print Assumptions C40_agreement.
Print Assumptions C46_other_entries.
Print Assumptions C46_clean_failure.
Print Assumptions C46_bad_entry_panics.
Print Assumptions C47_static_secret.
Print Assumptions C47_static_round_trip.
Print Assumptions C47_empty_list.
