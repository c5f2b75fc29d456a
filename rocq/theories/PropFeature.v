(** Property C59: the crate built without the feature [resolve]. *)

From Coq Require Import Ascii String Arith NArith List Bool Lia.
From Verif Require Import Bytes BytesFacts Base64 Utf8 Json JsonFacts Value Types Serde Message Attach ChaCha Sha256 Envelope Spec SpecFacts SpecText CryptoLaws Examples
  PlainFacts PlainFacts2 SpecSeal SealFacts SealFacts2 SealFacts3 PropSeal KeyFacts PropKey SetterFacts SpecSign SerdeFacts NoResolve.
Import ListNotations.
Local Open Scope string_scope.

(** The same environment with a resolver that finds nothing. *)
Definition unresolved (E : env) : env := {|
  x_pub := x_pub E; x_dh := x_dh E; xc_enc := xc_enc E; xc_dec := xc_dec E; gcm_enc := gcm_enc E; gcm_dec := gcm_dec E; cbc_enc := cbc_enc E;
  sig_sign := sig_sign E; sig_verify := sig_verify E; resolve := fun _ => None; fl := fl E; ho := ho E |}.

(** ** Sending *)

Lemma shared_off : forall E sk did pk, shared_for_off E sk pk = shared_for (unresolved E) sk did pk.
Proof. intros E sk did [k|]; reflexivity. Qed.
Lemma kek_off : forall E did sk ze alg pk, generate_kek_off E sk ze alg pk = generate_kek (unresolved E) did sk ze alg pk.
Proof. intros E did sk ze alg pk. unfold generate_kek_off, generate_kek. now rewrite (shared_off E sk did pk). Qed.
Lemma encrypt_cek_unresolved : forall E rr m sk dest cek pk, encrypt_cek_off E rr m sk dest cek pk = encrypt_cek (unresolved E) rr m sk dest cek pk.
Proof.
  intros E rr m sk dest cek pk. unfold encrypt_cek_off, encrypt_cek. destruct (jh_alg (m_jwm m)) as [alg|]; [|reflexivity]. cbn [oerr rbind].
  rewrite (shared_off E (rr_esk rr) dest pk). destruct (shared_for (unresolved E) (rr_esk rr) dest pk) as [ze| |]; [|reflexivity|reflexivity]. cbn [rbind].
  rewrite (kek_off E dest sk ze alg pk). reflexivity.
Qed.
Lemma seal_loop_unresolved : forall E rnd m sk ds ps i, seal_loop_off E rnd m sk i ds ps = seal_loop (unresolved E) rnd m sk i ds ps.
Proof.
  intros E rnd m sk ds. induction ds as [|d ds IH]; intros ps i; [reflexivity|]. destruct ps as [|p ps]; [reflexivity|]. cbn [seal_loop_off seal_loop].
  rewrite encrypt_cek_unresolved. destruct (encrypt_cek (unresolved E) (rnd i) m sk d seal_cek p); [|reflexivity|reflexivity]. cbn [rbind]. now rewrite IH.
Qed.
Lemma with_all_keys : forall E rnd m sk ds ks i, seal_loop (unresolved E) rnd m sk i ds (map Some ks) = seal_loop E rnd m sk i ds (map Some ks).
Proof.
  intros E rnd m sk ds. induction ds as [|d ds IH]; intros ks i; [reflexivity|]. destruct ks as [|k ks]; [reflexivity|]. cbn [map seal_loop].
  change (encrypt_cek (unresolved E) (rnd i) m sk d seal_cek (Some k)) with (encrypt_cek E (rnd i) m sk d seal_cek (Some k)).
  destruct (encrypt_cek E (rnd i) m sk d seal_cek (Some k)); [|reflexivity|reflexivity]. cbn [rbind]. now rewrite IH.
Qed.

(** Whatever the arguments, sending is sending with a resolver that finds nothing: everything proved for all environments
    holds without the feature as well. *)
Theorem C59_sending : forall E rnd m sk keys,
  seal_off E rnd m sk keys = seal (unresolved E) rnd m sk keys /\
  (forall sa ssk, seal_signed_off E rnd m sk keys sa ssk = seal_signed (unresolved E) rnd m sk keys sa ssk) /\
  (forall rnd2 uuid mediator mk, routed_by_off E rnd rnd2 uuid m sk keys mediator mk = routed_by (unresolved E) rnd rnd2 uuid m sk keys mediator mk) /\
  (forall a k, as_jwe_off m a k = as_jwe (resolve (unresolved E)) m a k).
Proof.
  assert (G : forall E rnd m sk keys, seal_off E rnd m sk keys = seal (unresolved E) rnd m sk keys).
  { intros E rnd m sk keys. unfold seal_off, seal. destruct (negb _); [reflexivity|].
    match goal with |- rbind ?y _ = rbind ?y _ => destruct y as [pks| |]; [|reflexivity|reflexivity] end. cbn [rbind].
    destruct (_ =? 0)%nat; [reflexivity|]. destruct (_ && _)%bool; [reflexivity|]. now rewrite seal_loop_unresolved. }
  assert (A : forall m a k, as_jwe_off m a k = as_jwe (fun _ => None) m a k).
  { intros m a [k|]; [reflexivity|]. unfold as_jwe_off, as_jwe. now destruct (dh_from (m_did m)). }
  intros E rnd m sk keys. split; [apply G|]. split; [|split; [|apply A]].
  - intros sa ssk. unfold seal_signed_off, seal_signed. change (signer (unresolved E) sa) with (signer E sa). change (rt (unresolved E) 0) with (rt E 0).
    destruct (sign _ _ _); [|reflexivity|reflexivity]. cbn [rbind]. destruct (oerr (parse _) _); [|reflexivity|reflexivity]. cbn [rbind].
    destruct (oerr (value_of _ _ _) _); [|reflexivity|reflexivity]. cbn [rbind]. apply G.
  - intros rnd2 uuid mediator mk. unfold routed_by_off, routed_by. change (rt (unresolved E) 0) with (rt E 0). change (resolve (unresolved E)) with (fun _ : string => @None did_doc).
    destruct (crypter_of _); [|reflexivity|reflexivity]. cbn [rbind]. destruct (first_to _); [|reflexivity|reflexivity]. cbn [rbind]. rewrite G.
    destruct (seal (unresolved E) rnd m sk keys); [|reflexivity|reflexivity]. cbn [rbind]. rewrite A.
    destruct (set_body _ _ _); [|reflexivity|reflexivity]. cbn [rbind]. apply G.
Qed.
(** With a key for every recipient the feature makes no difference, whatever the resolver would have said. *)
Theorem C59_keys_given : forall E rnd m sk ks,
  seal_off E rnd m sk (Some (map Some ks)) = seal E rnd m sk (Some (map Some ks)) /\
  (forall sa ssk, seal_signed_off E rnd m sk (Some (map Some ks)) sa ssk = seal_signed E rnd m sk (Some (map Some ks)) sa ssk) /\
  (forall rnd2 uuid mediator mk, routed_by_off E rnd rnd2 uuid m sk (Some (map Some ks)) mediator (Some mk) = routed_by E rnd rnd2 uuid m sk (Some (map Some ks)) mediator (Some mk)).
Proof.
  assert (G : forall E rnd m sk ks, seal (unresolved E) rnd m sk (Some (map Some ks)) = seal E rnd m sk (Some (map Some ks))).
  { intros E rnd m sk ks. unfold seal. destruct (negb _); [reflexivity|]. destruct (negb _); [reflexivity|]. cbn [rbind].
    destruct (_ =? 0)%nat; [reflexivity|]. destruct (_ && _)%bool; [reflexivity|]. rewrite with_all_keys. reflexivity. }
  intros E rnd m sk ks. destruct (C59_sending E rnd m sk (Some (map Some ks))) as [S1 [S2 [S3 _]]]. split; [now rewrite S1|]. split.
  - intros sa ssk. rewrite S2. unfold seal_signed. change (signer (unresolved E) sa) with (signer E sa). change (rt (unresolved E) 0) with (rt E 0).
    destruct (sign _ _ _); [|reflexivity|reflexivity]. cbn [rbind]. destruct (oerr (parse _) _); [|reflexivity|reflexivity]. cbn [rbind].
    destruct (oerr (value_of _ _ _) _); [|reflexivity|reflexivity]. cbn [rbind]. apply G.
  - intros rnd2 uuid mediator mk. rewrite S3. unfold routed_by. change (rt (unresolved E) 0) with (rt E 0).
    destruct (crypter_of _); [|reflexivity|reflexivity]. cbn [rbind]. destruct (first_to _); [|reflexivity|reflexivity]. cbn [rbind]. rewrite G.
    destruct (seal E rnd m sk (Some (map Some ks))); [|reflexivity|reflexivity]. cbn [rbind].
    unfold as_jwe.
    destruct (set_body _ _ _) as [outer| |]; [|reflexivity|reflexivity]. cbn [rbind]. apply (G E rnd2 outer sk [mk]).
Qed.
(** A recipient without a key: nothing is sent. *)
Lemma seal_loop_missing : forall E rnd m sk ds ps i k, nth_error ps k = Some None -> k < List.length ds -> forall rs, seal_loop_off E rnd m sk i ds ps <> Ok rs.
Proof.
  intros E rnd m sk ds. induction ds as [|d ds IH]; intros ps i k HN HL rs; [cbn in HL; lia|]. destruct ps as [|p ps]; [destruct k; discriminate|].
  cbn [seal_loop_off]. destruct k as [|k].
  - injection HN as ->. unfold encrypt_cek_off. destruct (jh_alg (m_jwm m)); cbn; discriminate.
  - destruct (encrypt_cek_off E (rnd i) m sk d seal_cek p); cbn [rbind]; try discriminate. cbn in HN, HL.
    destruct (seal_loop_off E rnd m sk (S i) ds ps) as [l| |] eqn:E1; cbn [rbind]; try discriminate. exfalso. eapply (IH ps (S i) k); [exact HN|lia|exact E1].
Qed.
Theorem C59_key_missing : forall E rnd m sk keys k text, given_key keys k = None -> k < List.length (dh_to (m_did m)) -> seal_off E rnd m sk keys <> Ok text.
Proof.
  intros E rnd m sk keys k text HK HL. unfold seal_off. destruct (negb _); [discriminate|].
  assert (HP : forall pks, match keys with Some l => if negb (List.length l =? List.length (dh_to (m_did m)))%nat
      then Err (EGeneric "`to` and `recipient_public_keys` must have same length") else Ok l | None => Ok (repeat None (List.length (dh_to (m_did m)))) end = Ok pks ->
      nth_error pks k = Some None).
  { intros pks HP. destruct keys as [l|].
    - destruct (Nat.eqb_spec (List.length l) (List.length (dh_to (m_did m)))) as [HE|]; [|discriminate]. apply ok_inj in HP. subst pks.
      cbn [given_key] in HK. rewrite <- HK. apply nth_error_nth'. lia.
    - apply ok_inj in HP. subst pks. now apply nth_error_repeat. }
  match goal with |- rbind ?y _ <> _ => destruct y as [pks| |] eqn:EP; [|discriminate|discriminate] end. cbn [rbind]. specialize (HP pks eq_refl).
  destruct (_ =? 0)%nat; [discriminate|]. destruct (_ && _)%bool; [discriminate|].
  destruct (seal_loop_off E (sr_rec rnd) m sk 0 (dh_to (m_did m)) pks) as [rs| |] eqn:EL; [|discriminate|discriminate].
  exfalso. eapply seal_loop_missing; eauto.
Qed.

(** ** Receiving *)

Lemma decrypt_cek_given : forall E e sk r pk, decrypt_cek_off E e sk r (Some pk) = decrypt_cek E e sk r (Some pk).
Proof. reflexivity. Qed.
Lemma find_cek_given : forall E e sk pk l acc, find_cek_off E e sk (Some pk) acc l = find_cek E e sk (Some pk) acc l.
Proof.
  intros E e sk pk l. induction l as [|r l IH]; intros acc; [reflexivity|]. cbn [find_cek_off find_cek]. rewrite decrypt_cek_given.
  destruct (decrypt_cek E e sk r (Some pk)); [reflexivity|apply IH|reflexivity].
Qed.
(** With the key of the sender, and for everything that is not encrypted, the feature makes no difference. *)
Theorem C59_receiving : forall E text sk pk spk, (exists k, pk = Some k) \/ get_message_type (rt E 0) text <> Ok DidCommJwe ->
  receive_off E text sk pk spk = receive E text sk pk spk.
Proof.
  intros E text sk pk spk H. unfold receive_off, receive. destruct (get_message_type (rt E 0) text) as [t| |] eqn:ET; [|reflexivity|reflexivity]. cbn [rbind].
  destruct (is_jwe_type t) eqn:EJ; [|reflexivity]. destruct H as [[k ->]|H]; [|destruct t; try discriminate EJ; now elim H].
  destruct (oerr sk _) as [s| |]; [|reflexivity|reflexivity]. cbn [rbind].
  replace (receive_jwe_off E text s (Some k)) with (receive_jwe E text s (Some k)); [reflexivity|].
  unfold receive_jwe_off, receive_jwe. destruct (oerr (jwe_from_str _ _) _) as [e| |]; [|reflexivity|reflexivity]. cbn [rbind].
  destruct (oerr (jwe_get e jh_alg) _) as [alg| |]; [|reflexivity|reflexivity]. cbn [rbind]. destruct (arr32 s); [|reflexivity|reflexivity]. cbn [rbind].
  destruct (arr32 k); [|reflexivity|reflexivity]. cbn [rbind]. destruct (crypto_alg_of alg); [|reflexivity|reflexivity]. cbn [rbind].
  destruct (jwe_recipients e) as [l|]; [|reflexivity]. now rewrite find_cek_given.
Qed.
(** Without it an encrypted text is refused, before any key is used. *)
Theorem C59_sender_missing : forall E text sk spk e alg, get_message_type (rt E 0) text = Ok DidCommJwe -> jwe_from_str (rt E 1) text = Some e -> jwe_get e jh_alg = Some alg ->
  receive_off E text (Some sk) None spk = Err EDidResolveFailed.
Proof. intros E text sk spk e alg HT HJ HA. unfold receive_off. rewrite HT. cbn [rbind is_jwe_type oerr]. unfold receive_jwe_off. rewrite HJ. cbn [oerr rbind]. rewrite HA. reflexivity. Qed.
Theorem C59_sender_needed : forall E text sk spk m, get_message_type (rt E 0) text = Ok DidCommJwe -> receive_off E text sk None spk <> Ok m.
Proof.
  intros E text sk spk m HT H. unfold receive_off in H. rewrite HT in H. cbn [rbind is_jwe_type] in H. destruct sk as [k|]; [|discriminate]. cbn [oerr rbind] in H.
  unfold receive_jwe_off in H. destruct (jwe_from_str (rt E 1) text) as [e|]; [|discriminate]. cbn [oerr rbind] in H. destruct (jwe_get e jh_alg); discriminate.
Qed.
(** Sent and received without the feature. *)
Theorem C59_round_trip : forall E rnd m sk ks text i dest rsk signing from,
  env_ok E -> crypto_ok E -> rand_ok rnd -> sendable E m -> few_custom (m_jwm m) -> avoids envelope_names (dh_other (m_did m)) ->
  jh_typ (m_jwm m) <> DidCommJws -> dh_from (m_did m) = Some from ->
  seal_off E rnd m sk (Some (map Some ks)) = Ok text ->
  nth_error (dh_to (m_did m)) i = Some dest -> nth_error ks i = Some (x_pub E rsk) -> String.length rsk = 32 ->
  others_closed E rnd m sk (Some (map Some ks)) rsk i ->
  exists m', receive_off E text (Some rsk) (Some (x_pub E sk)) signing = Ok m' /\ received m m'.
Proof.
  intros E rnd m sk ks text i dest rsk signing from HE HC HR HS HF HA HT HF' HT' HD HK HL HI. destruct (C59_keys_given E rnd m sk ks) as [S1 _]. rewrite S1 in HT'.
  rewrite C59_receiving by (left; eauto). eapply C12_seal_receive; eauto. rewrite nth_error_map, HK. reflexivity.
Qed.
(** Everything that [seal] made is refused without the key of the sender. *)
Theorem C59_sealed_refused : forall E rnd m sk keys text rsk signing, sendable E m -> seal_off E rnd m sk keys = Ok text ->
  receive_off E text (Some rsk) None signing = Err EDidResolveFailed.
Proof.
  intros E rnd m sk keys text rsk signing HS HT. destruct (C59_sending E rnd m sk keys) as [S1 _]. rewrite S1 in HT. apply seal_text in HT.
  destruct HT as [a [rs [sh [c [H1 [H2 [H3 [H4 [H5 [_ [H6 [H7 [H8 ->]]]]]]]]]]]]].
  pose proof (sealed_env_good (seal_header m) sh rs (take (String.length c - 16) c) (drop (String.length c - 16) c) (sr_iv rnd) (seal_header_good E m HS) H5 H6) as HG.
  destruct (decodes_good E _ HG) as [D1 [D2 _]]. eapply C59_sender_missing; [exact D1|exact D2|].
  unfold jwe_get, re_jwe, sealed_env, fallback. cbn [je_protected je_unprotected option_map]. unfold re_jwm at 1. cbn [jh_alg]. rewrite seal_header_alg, H2. reflexivity.
Qed.
(** The second of two recipients. *)
Example C59_example : exists text m', seal_off toy ex_rand (ex_jwe XC20P) alice_key (Some ex_keys) = Ok text /\
  receive_off toy text (Some carol_key) (Some alice_key) None = Ok m' /\ received (ex_jwe XC20P) m' /\ receive_off toy text (Some carol_key) None None = Err EDidResolveFailed.
Proof.
  destruct (C12_example XC20P (or_introl eq_refl)) as [text [m' [HT [HR HM]]]]. exists text, m'.
  destruct (C59_keys_given toy ex_rand (ex_jwe XC20P) alice_key [bob_key; carol_key]) as [S1 _].
  change (Some (map Some [bob_key; carol_key])) with (Some ex_keys) in S1. rewrite HT in S1.
  split; [exact S1|]. split; [rewrite C59_receiving by (left; eauto); exact HR|]. split; [exact HM|].
  eapply C59_sealed_refused; [apply ex_jwe_sendable|exact S1].
Qed.
Example C59_missing_example : given_key (Some [Some bob_key; None]) 1 = None /\ 1 < List.length (dh_to (m_did (ex_jwe XC20P))).
Proof. split; [reflexivity|]. cbn. lia. Qed.

Print Assumptions C59_sending.
Print Assumptions C59_keys_given.
Print Assumptions C59_key_missing.
Print Assumptions C59_receiving.
Print Assumptions C59_sender_missing.
Print Assumptions C59_sender_needed.
Print Assumptions C59_round_trip.
Print Assumptions C59_sealed_refused.
