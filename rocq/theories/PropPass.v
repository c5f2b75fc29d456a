(** A signed message passed on to somebody else: C75. *)

From Coq Require Import Ascii String Arith ZArith NArith List Bool Permutation Lia.
From Verif Require Import Bytes BytesFacts Base64 Base64Facts Utf8 Utf8Facts Json JsonFacts Value ValueFacts Types Serde SerdeFacts
  Message Attach ChaCha Sha256 Aead Envelope Spec SpecFacts DecodeFacts PlainFacts CodecFacts SetterFacts SpecText CryptoLaws Examples PropPlain
  SpecSign HeaderFacts SignFacts SignFacts2 PropSign SpecSeal SealFacts SealFacts2 SealFacts3 PropSeal SpecRoute RouteFacts PropRoute KeyFacts PropKey AeadFacts AeadFacts2 SignSize PrimFacts3
  PropAead Float PropFloat SpecEnv SameFacts3 Curve CurveFacts PropCurve Sha512 Ed25519 EdFacts PropEd PropWhole.
Import ListNotations.
Local Open Scope nat_scope.
Local Open Scope string_scope.

(** ** Facts *)

(** The body of an opened envelope, taken over into another message. *)
Lemma set_body_tree : forall E k o m s, set_body (rt E k) o (print (jws_tree m s)) = Ok (with_body o (jws_tree m s)).
Proof.
  intros E k o m s. unfold set_body. rewrite <- jws_tree_eq. rewrite parse_print by apply wf_ser_jws. cbn [oerr rbind]. rewrite jws_tree_eq.
  rewrite (value_of_canon (rt E k) max_depth (jws_tree m s)); [reflexivity| |].
  - apply rust_canon; [apply jws_tree_value|apply jws_tree_stable].
  - pose proof (jws_tree_depth m s). unfold max_depth. lia.
Qed.
(** What a recipient makes of a signed message in the envelope of any message whatever. *)
Lemma carried_received : forall E rnd o m sk keys sa ssk s text i dest rsk spk gpk from, env_ok E -> crypto_ok E -> rand_ok rnd -> sendable E o -> few_custom (m_jwm o) ->
  avoids envelope_names (dh_other (m_did o)) -> dh_from (m_did o) = Some from -> sendable E m -> few_custom (m_jwm m) ->
  sig_sign E sa ssk (sign_input (as_jws m sa)) = Some s ->
  seal E rnd (set_typ (with_body o (jws_tree (as_jws m sa) s)) DidCommJws) sk keys = Ok text -> nth_error (dh_to (m_did o)) i = Some dest -> String.length rsk = 32 ->
  known_key E dest (given_key keys i) (x_pub E rsk) -> known_key E from spk (x_pub E sk) -> others_closed E rnd o sk keys rsk i -> key_pair E sa ssk gpk ->
  receive E text (Some rsk) spk (Some gpk) = Ok (re_message (rt E 9) (re_message (rt E 7) (with_jwm m jwm_default))).
Proof.
  intros E rnd o m sk keys sa ssk s text i dest rsk spk gpk from HE HC HR HS HF HA HFr HSm HFm H1 HT HN L HK HSK HB HP.
  set (sm := set_typ (with_body o (jws_tree (as_jws m sa) s)) DidCommJws) in *.
  assert (HSM : sendable E sm).
  { unfold sm, set_typ. apply with_jwm_sendable; [now apply jws_tree_sendable|]. apply good_typ. exact (sendable_header E o HS). }
  destruct (seal_receive_jwe E rnd sm sk keys text i dest rsk spk from HE HC HR HSM HF HFr HT HN L HK HSK HB) as [rs [G1 [_ [G2 G3]]]].
  assert (HAL : jh_alg (m_jwm o) <> None). { apply seal_text in HT. destruct HT as [a [_ [_ [_ [_ [HT _]]]]]]. change (jh_alg (m_jwm sm)) with (jh_alg (m_jwm o)) in HT. congruence. }
  pose proof (with_recipients_sendable E sm rs HSM G1) as HSR. pose proof (re_message_same E 3 (with_recipients sm (Some rs)) HE) as HM. pose proof (same_sendable E _ _ HM HSR) as HS'.
  assert (HA' : avoids envelope_names (dh_other (m_did (re_message (rt E 3) (with_recipients sm (Some rs)))))).
  { destruct HM as [_ [HM _]]. eapply avoids_perm; [|exact HA]. apply HM. }
  unfold receive. rewrite G3. cbn [rbind is_jwe_type oerr]. rewrite G2. cbn [rbind]. rewrite (classify_message E 4 _ HS' HA'). cbn [rbind].
  change (is_jws_type (jh_typ (m_jwm (re_message (rt E 3) (with_recipients sm (Some rs)))))) with true. cbv iota.
  unfold receive_jws. rewrite (sendable_from_str E 5 _ HS').
  change (jh_alg (m_jwm (re_message (rt E 5) (re_message (rt E 3) (with_recipients sm (Some rs)))))) with (jh_alg (m_jwm o)).
  change (get_body (re_message (rt E 5) (re_message (rt E 3) (with_recipients sm (Some rs))))) with (print (jws_tree (as_jws m sa) s)).
  rewrite <- jws_tree_eq. change (print (ser_jws (sign_env (as_jws m sa) s))) with (jws_json (sign_env (as_jws m sa) s)).
  destruct (jh_alg (m_jwm o)) as [alg|]; [|congruence]. cbn [signing_key rbind oerr].
  rewrite (verify_signed E (rt E 6) (rt E 7) (as_jws m sa) sa ssk gpk (jws_json (sign_env (as_jws m sa) s))).
  - change (with_jwm (as_jws m sa) jwm_default) with (with_jwm m jwm_default). pose proof (with_default_sendable E m HSm) as HD.
    rewrite (sendable_from_slice E 7 _ HD). cbn [oerr rbind]. pose proof (same_sendable E _ _ (re_message_same E 7 _ HE) HD) as HD'.
    rewrite (sendable_from_str E 9 _ HD'). reflexivity.
  - now apply env_drt.
  - apply as_jws_good. now apply (sendable_header E).
  - exact HFm.
  - reflexivity.
  - exact HP.
  - apply sign_ok. exists s. split; [discriminate|]. split; [now apply signer_ok|reflexivity].
  - right. exact (sd_to E m HSm).
Qed.
(** The signed message of an envelope, in the hands of whoever opens it. *)
Lemma carried_opened : forall E rnd m sk keys sa ssk text a k1 k2, env_ok E -> crypto_ok E -> sendable E m -> few_custom (m_jwm m) ->
  jh_alg (m_jwm m) = Some (wrap_name a) -> usable a -> seal_signed E rnd m sk keys sa ssk = Ok text ->
  exists s d, sig_sign E sa ssk (sign_input (as_jws m sa)) = Some s /\
    decrypt (rt E k1) (rt E k2) text (decrypter E a) seal_cek = Ok d /\ get_body d = print (jws_tree (as_jws m sa) s).
Proof.
  intros E rnd m sk keys sa ssk text a k1 k2 HE HC HS HF HA HU HT. apply seal_signed_ok in HT. destruct HT as [s [H1 HT]].
  set (sm := set_typ (with_body m (jws_tree (as_jws m sa) s)) DidCommJws) in *.
  assert (HSM : sendable E sm).
  { unfold sm, set_typ. apply with_jwm_sendable; [now apply jws_tree_sendable|]. apply good_typ. exact (sendable_header E m HS). }
  destruct (seal_decrypt E rnd sm sk keys text a k1 k2 HE HC HSM HF HA HU HT) as [rs [_ HD]].
  exists s. eexists. split; [exact H1|]. split; [exact HD|]. reflexivity.
Qed.

(** ** C75 *)

(** [text] is a signed message of the holder of [ssk], sealed for its recipients. Whoever opens it, which takes no key (C16), has a message [d]. Its
    body in an own message [o], sealed for a third party, is received there as the message of the first sender: his signature is valid, the
    message names him as its sender and the recipients that he meant, and nothing of [o] is left. *)
Theorem C75_passed_on : exists cek, String.length cek = 32 /\ forall E rnd m sk keys sa ssk text alg a k1 k2,
  env_ok E -> crypto_ok E -> sendable E m -> few_custom (m_jwm m) -> jh_alg (m_jwm m) = Some alg -> In (alg, a) wrap_table ->
  seal_signed E rnd m sk keys sa ssk = Ok text ->
  exists d, decrypt (rt E k1) (rt E k2) text (decrypter E a) cek = Ok d /\
    forall k3 o rnd2 mine keys2, exists o', set_body (rt E k3) o (get_body d) = Ok o' /\
    forall text2 me i third rsk sender gpk,
    rand_ok rnd2 -> sendable E o -> few_custom (m_jwm o) -> avoids envelope_names (dh_other (m_did o)) -> dh_from (m_did o) = Some me ->
    seal E rnd2 (set_typ o' DidCommJws) mine keys2 = Ok text2 -> nth_error (dh_to (m_did o)) i = Some third -> String.length rsk = 32 ->
    known_key E third (given_key keys2 i) (x_pub E rsk) -> known_key E me sender (x_pub E mine) -> others_closed E rnd2 o mine keys2 rsk i ->
    key_pair E sa ssk gpk ->
    exists m', receive E text2 (Some rsk) sender (Some gpk) = Ok m' /\ same_message (with_jwm m jwm_default) m' /\
      dh_from (m_did m') = dh_from (m_did m) /\ dh_to (m_did m') = dh_to (m_did m).
Proof.
  exists seal_cek. split; [exact seal_cek_length|].
  intros E rnd m sk keys sa ssk text alg a k1 k2 HE HC HS HF HA HI HT. apply crypto_alg_of_table, crypto_alg_of_ok in HI. destruct HI as [HU ->].
  destruct (carried_opened E rnd m sk keys sa ssk text a k1 k2 HE HC HS HF HA HU HT) as [s [d [H1 [HD HG]]]].
  exists d. split; [exact HD|]. intros k3 o rnd2 mine keys2. rewrite HG, set_body_tree. eexists. split; [reflexivity|].
  intros text2 me i third rsk sender gpk HR HSo HFo HAo HFr HT2 HN L HK HSK HB HP. eexists.
  split; [exact (carried_received E rnd2 o m mine keys2 sa ssk s text2 i third rsk sender gpk me HE HC HR HSo HFo HAo HFr HS HF H1 HT2 HN L HK HSK HB HP)|].
  split; [|split; reflexivity]. eapply same_message_trans; [|apply re_message_same; exact HE]. now apply re_message_same.
Qed.
(** The third party has what the recipients have: nothing tells the two deliveries apart. *)
Theorem C75_same : exists cek, forall E rnd m sk keys sa ssk text alg a k1 k2 from j dest rsk1 sender1 m1 gpk,
  env_ok E -> crypto_ok E -> sendable E m -> few_custom (m_jwm m) -> jh_alg (m_jwm m) = Some alg -> In (alg, a) wrap_table ->
  seal_signed E rnd m sk keys sa ssk = Ok text -> key_pair E sa ssk gpk ->
  rand_ok rnd -> avoids envelope_names (dh_other (m_did m)) -> dh_from (m_did m) = Some from -> nth_error (dh_to (m_did m)) j = Some dest -> String.length rsk1 = 32 ->
  known_key E dest (given_key keys j) (x_pub E rsk1) -> known_key E from sender1 (x_pub E sk) -> others_closed E rnd m sk keys rsk1 j ->
  receive E text (Some rsk1) sender1 (Some gpk) = Ok m1 ->
  exists d, decrypt (rt E k1) (rt E k2) text (decrypter E a) cek = Ok d /\
    forall k3 o rnd2 mine keys2, exists o', set_body (rt E k3) o (get_body d) = Ok o' /\
    forall text2 me i third rsk sender,
    rand_ok rnd2 -> sendable E o -> few_custom (m_jwm o) -> avoids envelope_names (dh_other (m_did o)) -> dh_from (m_did o) = Some me ->
    seal E rnd2 (set_typ o' DidCommJws) mine keys2 = Ok text2 -> nth_error (dh_to (m_did o)) i = Some third -> String.length rsk = 32 ->
    known_key E third (given_key keys2 i) (x_pub E rsk) -> known_key E me sender (x_pub E mine) -> others_closed E rnd2 o mine keys2 rsk i ->
    receive E text2 (Some rsk) sender (Some gpk) = Ok m1.
Proof.
  exists seal_cek. intros E rnd m sk keys sa ssk text alg a k1 k2 from j dest rsk1 sender1 m1 gpk HE HC HS HF HA HI HT HP HR HAv HFr HN L HK HSK HB H1.
  apply crypto_alg_of_table, crypto_alg_of_ok in HI. destruct HI as [HU ->].
  rewrite (seal_signed_round_trip E rnd m sk keys sa ssk text j dest rsk1 sender1 gpk from HE HC HR HS HF HAv HFr HT HN L HK HSK HB HP) in H1. apply ok_inj in H1.
  destruct (carried_opened E rnd m sk keys sa ssk text a k1 k2 HE HC HS HF HA HU HT) as [s [d [G1 [HD HG]]]].
  exists d. split; [exact HD|]. intros k3 o rnd2 mine keys2. rewrite HG, set_body_tree. eexists. split; [reflexivity|].
  intros text2 me i third rsk sender HRo HSo HFo HAo HFro HT2 HNo Lo HKo HSKo HBo. rewrite <- H1.
  exact (carried_received E rnd2 o m mine keys2 sa ssk s text2 i third rsk sender gpk me HE HC HRo HSo HFo HAo HFro HS HF G1 HT2 HNo Lo HKo HSKo HBo HP).
Qed.
(** The same with the modelled key agreement, ciphers and signatures. *)
Theorem C75_real : exists cek, forall E rnd m sk keys seed text alg a k1 k2,
  orders_ok E -> String.length seed = 32 -> sendable (whole (eddsa E)) m -> few_custom (m_jwm m) -> jh_alg (m_jwm m) = Some alg -> In (alg, a) wrap_table ->
  seal_signed (whole (eddsa E)) rnd m sk keys EdDsa (seed ++ ed_public seed) = Ok text ->
  exists d, decrypt (rt (whole (eddsa E)) k1) (rt (whole (eddsa E)) k2) text (decrypter (whole (eddsa E)) a) cek = Ok d /\
    forall k3 o rnd2 mine keys2, exists o', set_body (rt (whole (eddsa E)) k3) o (get_body d) = Ok o' /\
    forall text2 me third rsk sender rest,
    rand_ok rnd2 -> sendable (whole (eddsa E)) o -> few_custom (m_jwm o) -> avoids envelope_names (dh_other (m_did o)) -> dh_from (m_did o) = Some me ->
    seal (whole (eddsa E)) rnd2 (set_typ o' DidCommJws) mine keys2 = Ok text2 -> dh_to (m_did o) = third :: rest -> String.length rsk = 32 ->
    known_key E third (given_key keys2 0) (x25519_base rsk) -> known_key E me sender (x25519_base mine) ->
    exists m', receive (whole (eddsa E)) text2 (Some rsk) sender (Some (ed_public seed)) = Ok m' /\ same_message (with_jwm m jwm_default) m' /\
      dh_from (m_did m') = dh_from (m_did m) /\ dh_to (m_did m') = dh_to (m_did m).
Proof.
  destruct C75_passed_on as [cek [_ HX]]. exists cek. intros E rnd m sk keys seed text alg a k1 k2 HO HL HS HF HA HI HT.
  destruct (C69_lawful (eddsa E) HO) as [HE HC].
  destruct (HX (whole (eddsa E)) rnd m sk keys EdDsa (seed ++ ed_public seed) text alg a k1 k2 HE HC HS HF HA HI HT) as [d [HD HY]].
  exists d. split; [exact HD|]. intros k3 o rnd2 mine keys2. destruct (HY k3 o rnd2 mine keys2) as [o' [HB HZ]]. exists o'. split; [exact HB|].
  intros text2 me third rsk sender rest HR HSo HFo HAo HFr HT2 HN L HK HSK.
  apply (HZ text2 me 0 third rsk sender (ed_public seed)); try assumption.
  - rewrite HN. reflexivity.
  - apply closed_first.
  - now apply C70_key_pair.
Qed.

(** Bob, one of the two recipients of Alice, passes her message on to Dave. *)
Definition dave_key : string := srepeat 32 "d".
Definition ex_pass : message :=
  with_did (ex_jwe XC20P) (dh_with_to (dh_with_from (m_did (ex_jwe XC20P)) (Some "did:toy:bob")) ["did:toy:dave"]).
Lemma ex_pass_sendable : sendable toy ex_pass.
Proof. unfold ex_pass, ex_jwe, ex_one, ex_one_jwk, ex_did, ex_body, ex_attachment. send_msg. Qed.
Example C75_example : forall a sa, In a [XC20P; A256GCM] -> exists cek text d o' text2 m',
  seal_signed toy ex_rand (ex_jwe a) alice_key (Some ex_keys) sa "signing" = Ok text /\
  decrypt (rt toy 0) (rt toy 1) text (decrypter toy a) cek = Ok d /\ set_body (rt toy 2) ex_pass (get_body d) = Ok o' /\
  seal toy ex_rand (set_typ o' DidCommJws) bob_key (Some [Some dave_key]) = Ok text2 /\
  receive toy text2 (Some dave_key) (Some bob_key) (Some "signing") = Ok m' /\ same_message (with_jwm (ex_jwe a) jwm_default) m' /\
  dh_from (m_did m') = Some "did:toy:alice" /\ ~ In "did:toy:dave" (dh_to (m_did m')).
Proof.
  intros a sa HA. destruct C75_passed_on as [cek [_ HX]].
  assert (HI : In (wrap_name a, a) wrap_table). { apply crypto_alg_of_table, crypto_alg_of_ok. split; [|reflexivity]. intros ->. destruct HA as [H|[H|[]]]; discriminate. }
  assert (HA' : jh_alg (m_jwm (ex_jwe a)) = Some (wrap_name a)) by (destruct HA as [<-|[<-|[]]]; reflexivity).
  assert (HW : dh_from (m_did (ex_jwe a)) = Some "did:toy:alice" /\ ~ In "did:toy:dave" (dh_to (m_did (ex_jwe a)))).
  { split; [destruct HA as [<-|[<-|[]]]; reflexivity|]. destruct HA as [<-|[<-|[]]]; intros [H|[H|[]]]; discriminate. }
  destruct (ex_signed_seals a sa HA) as [text HT]. exists cek, text.
  destruct (HX toy ex_rand (ex_jwe a) alice_key (Some ex_keys) sa "signing" text (wrap_name a) a 0 1 toy_env toy_crypto (ex_jwe_sendable a) (ex_jwe_few a) HA' HI HT) as [d [HD HY]].
  destruct (HY 2 ex_pass ex_rand bob_key (Some [Some dave_key])) as [o' [HO HZ]]. exists d, o'.
  assert (HS : exists text2, seal toy ex_rand (set_typ o' DidCommJws) bob_key (Some [Some dave_key]) = Ok text2).
  { clear HZ HY HX HD HT. unfold set_body in HO. destruct (oerr (parse (get_body d)) ESerde) as [j| |]; [|discriminate|discriminate]. cbn [rbind] in HO.
    destruct (oerr (value_of (rt toy 2) max_depth j) ESerde) as [b| |]; [|discriminate|discriminate]. cbn [rbind] in HO. apply ok_inj in HO. subst o'.
    apply (seal_total toy ex_rand _ bob_key (Some [Some dave_key]) XC20P).
    - exact toy_crypto.
    - exact toy_total.
    - exact ex_rand_ok.
    - discriminate.
    - reflexivity.
    - apply srepeat_length.
    - discriminate.
    - discriminate.
    - intros l H. injection H as <-. reflexivity.
    - intros [|k] dest H; [|destruct k; discriminate]. exists dave_key. split; [now left|]. cbn. lia. }
  destruct HS as [text2 HS]. exists text2.
  destruct (HZ text2 "did:toy:bob" 0 "did:toy:dave" dave_key (Some bob_key) "signing") as [m' [H1 [H2 [H3 H4]]]].
  - exact ex_rand_ok.
  - exact ex_pass_sendable.
  - apply (ex_jwe_few XC20P).
  - exact ex_one_avoids.
  - reflexivity.
  - exact HS.
  - reflexivity.
  - apply srepeat_length.
  - now left.
  - now left.
  - apply closed_first.
  - apply toy_key_pair.
  - exists m'. rewrite H3, H4. tauto.
Qed.

Print Assumptions C75_passed_on.
Print Assumptions C75_same.
Print Assumptions C75_real.
