(** The key with which the signature in an envelope is checked: C78. *)

From Coq Require Import Ascii String Arith ZArith NArith List Bool Permutation Lia.
From Verif Require Import Bytes BytesFacts Base64 Base64Facts Utf8 Utf8Facts Json JsonFacts Value ValueFacts Types Serde SerdeFacts
  Message Attach ChaCha Sha256 Aead Envelope Spec SpecFacts DecodeFacts PlainFacts CodecFacts SetterFacts SpecText CryptoLaws Examples PropPlain
  SpecSign HeaderFacts SignFacts SignFacts2 PropSign SpecSeal SealFacts SealFacts2 SealFacts3 PropSeal SpecRoute RouteFacts PropRoute KeyFacts PropKey AeadFacts AeadFacts2 SignSize PrimFacts3
  PropAead Float PropFloat SpecEnv SameFacts3 Curve CurveFacts PropCurve Sha512 Ed25519 EdFacts PropEd PropWhole PropPass.
Import ListNotations.
Local Open Scope nat_scope.
Local Open Scope string_scope.

(** ** Facts *)

(** What a recipient makes of a signed message in the envelope of the message [o], whatever signing key he passes: the key is that one, or is read from [o]. *)
Lemma carried_key : forall E rnd o m sk keys sa ssk s text i dest rsk spk gpk from key, env_ok E -> crypto_ok E -> rand_ok rnd -> sendable E o -> few_custom (m_jwm o) ->
  avoids envelope_names (dh_other (m_did o)) -> dh_from (m_did o) = Some from -> sendable E m -> few_custom (m_jwm m) ->
  sig_sign E sa ssk (sign_input (as_jws m sa)) = Some s ->
  seal E rnd (set_typ (with_body o (jws_tree (as_jws m sa) s)) DidCommJws) sk keys = Ok text -> nth_error (dh_to (m_did o)) i = Some dest -> String.length rsk = 32 ->
  known_key E dest (given_key keys i) (x_pub E rsk) -> known_key E from spk (x_pub E sk) -> others_closed E rnd o sk keys rsk i -> signing_key gpk (jh_kid (m_jwm o)) = Ok key -> key_pair E sa ssk key ->
  receive E text (Some rsk) spk gpk = Ok (re_message (rt E 9) (re_message (rt E 7) (with_jwm m jwm_default))).
Proof.
  intros E rnd o m sk keys sa ssk s text i dest rsk spk gpk from key HE HC HR HS HF HA HFr HSm HFm H1 HT HN L HK HSK HB HKey HP.
  set (sm := set_typ (with_body o (jws_tree (as_jws m sa) s)) DidCommJws) in *.
  assert (HSM : sendable E sm).
  { unfold sm, set_typ. apply with_jwm_sendable; [now apply jws_tree_sendable|]. apply good_typ. exact (sendable_header E o HS). }
  destruct (seal_receive_jwe E rnd sm sk keys text i dest rsk spk from HE HC HR HSM HF HFr HT HN L HK HSK HB) as [rs [G1 [_ [G2 G3]]]].
  assert (HAL : jh_alg (m_jwm o) <> None). { apply seal_text in HT. destruct HT as [a [_ [_ [_ [_ [HT _]]]]]]. change (jh_alg (m_jwm sm)) with (jh_alg (m_jwm o)) in HT. congruence. }
  pose proof (with_recipients_sendable E sm rs HSM G1) as HSR. pose proof (re_message_same E 3 (with_recipients sm (Some rs)) HE) as HM. pose proof (same_sendable E _ _ HM HSR) as HS'.
  assert (HA' : avoids envelope_names (dh_other (m_did (re_message (rt E 3) (with_recipients sm (Some rs)))))).
  { destruct HM as [_ [HM _]]. eapply avoids_perm; [|exact HA]. apply HM. }
  unfold receive. rewrite G3. cbn [rbind is_jwe_type oerr]. rewrite G2. cbn [rbind]. rewrite (classify_message E 4 _ HS' HA'). cbn [rbind].
  change (is_jws_type (jh_typ (m_jwm (re_message (rt E 3) (with_recipients sm (Some rs)))))) with true. cbv iota.
  unfold receive_jws. rewrite (sendable_from_str E 5 _ HS').
  change (jh_alg (m_jwm (re_message (rt E 5) (re_message (rt E 3) (with_recipients sm (Some rs)))))) with (jh_alg (m_jwm o)).
  change (jh_kid (m_jwm (re_message (rt E 5) (re_message (rt E 3) (with_recipients sm (Some rs)))))) with (jh_kid (m_jwm o)).
  change (get_body (re_message (rt E 5) (re_message (rt E 3) (with_recipients sm (Some rs))))) with (print (jws_tree (as_jws m sa) s)).
  rewrite <- jws_tree_eq. change (print (ser_jws (sign_env (as_jws m sa) s))) with (jws_json (sign_env (as_jws m sa) s)).
  destruct (jh_alg (m_jwm o)) as [alg|]; [|congruence]. rewrite HKey. cbn [rbind oerr].
  rewrite (verify_signed E (rt E 6) (rt E 7) (as_jws m sa) sa ssk key (jws_json (sign_env (as_jws m sa) s))).
  - change (with_jwm (as_jws m sa) jwm_default) with (with_jwm m jwm_default). pose proof (with_default_sendable E m HSm) as HD.
    rewrite (sendable_from_slice E 7 _ HD). cbn [oerr rbind]. pose proof (same_sendable E _ _ (re_message_same E 7 _ HE) HD) as HD'.
    rewrite (sendable_from_str E 9 _ HD'). reflexivity.
  - now apply env_drt.
  - apply as_jws_good. now apply (sendable_header E).
  - exact HFm.
  - reflexivity.
  - exact HP.
  - apply sign_ok. exists s. split; [discriminate|]. split; [now apply signer_ok|reflexivity].
  - right. exact (sd_to E m HSm).
Qed.
(** The same if there is no such key. *)
Lemma carried_refused : forall E rnd o m sk keys sa ssk s text i dest rsk spk gpk from key, env_ok E -> crypto_ok E -> rand_ok rnd -> sendable E o -> few_custom (m_jwm o) ->
  avoids envelope_names (dh_other (m_did o)) -> dh_from (m_did o) = Some from -> sendable E m -> few_custom (m_jwm m) ->
  sig_sign E sa ssk (sign_input (as_jws m sa)) = Some s ->
  seal E rnd (set_typ (with_body o (jws_tree (as_jws m sa) s)) DidCommJws) sk keys = Ok text -> nth_error (dh_to (m_did o)) i = Some dest -> String.length rsk = 32 ->
  known_key E dest (given_key keys i) (x_pub E rsk) -> known_key E from spk (x_pub E sk) -> others_closed E rnd o sk keys rsk i -> signing_key gpk (jh_kid (m_jwm o)) = Err key ->
  receive E text (Some rsk) spk gpk = Err key.
Proof.
  intros E rnd o m sk keys sa ssk s text i dest rsk spk gpk from key HE HC HR HS HF HA HFr HSm HFm H1 HT HN L HK HSK HB HKey.
  set (sm := set_typ (with_body o (jws_tree (as_jws m sa) s)) DidCommJws) in *.
  assert (HSM : sendable E sm).
  { unfold sm, set_typ. apply with_jwm_sendable; [now apply jws_tree_sendable|]. apply good_typ. exact (sendable_header E o HS). }
  destruct (seal_receive_jwe E rnd sm sk keys text i dest rsk spk from HE HC HR HSM HF HFr HT HN L HK HSK HB) as [rs [G1 [_ [G2 G3]]]].
  assert (HAL : jh_alg (m_jwm o) <> None). { apply seal_text in HT. destruct HT as [a [_ [_ [_ [_ [HT _]]]]]]. change (jh_alg (m_jwm sm)) with (jh_alg (m_jwm o)) in HT. congruence. }
  pose proof (with_recipients_sendable E sm rs HSM G1) as HSR. pose proof (re_message_same E 3 (with_recipients sm (Some rs)) HE) as HM. pose proof (same_sendable E _ _ HM HSR) as HS'.
  assert (HA' : avoids envelope_names (dh_other (m_did (re_message (rt E 3) (with_recipients sm (Some rs)))))).
  { destruct HM as [_ [HM _]]. eapply avoids_perm; [|exact HA]. apply HM. }
  unfold receive. rewrite G3. cbn [rbind is_jwe_type oerr]. rewrite G2. cbn [rbind]. rewrite (classify_message E 4 _ HS' HA'). cbn [rbind].
  change (is_jws_type (jh_typ (m_jwm (re_message (rt E 3) (with_recipients sm (Some rs)))))) with true. cbv iota.
  unfold receive_jws. rewrite (sendable_from_str E 5 _ HS').
  change (jh_alg (m_jwm (re_message (rt E 5) (re_message (rt E 3) (with_recipients sm (Some rs)))))) with (jh_alg (m_jwm o)).
  change (jh_kid (m_jwm (re_message (rt E 5) (re_message (rt E 3) (with_recipients sm (Some rs)))))) with (jh_kid (m_jwm o)).
  change (get_body (re_message (rt E 5) (re_message (rt E 3) (with_recipients sm (Some rs))))) with (print (jws_tree (as_jws m sa) s)).
  rewrite <- jws_tree_eq. change (print (ser_jws (sign_env (as_jws m sa) s))) with (jws_json (sign_env (as_jws m sa) s)).
  destruct (jh_alg (m_jwm o)) as [alg|]; [|congruence]. rewrite HKey. cbn [rbind oerr]. reflexivity.
Qed.
(** Only a key under which the signature is valid is such a key. *)
Lemma carried_checked : forall E rnd o m sk keys sa ssk s text i dest rsk spk gpk from m', env_ok E -> crypto_ok E -> rand_ok rnd -> sendable E o -> few_custom (m_jwm o) ->
  avoids envelope_names (dh_other (m_did o)) -> dh_from (m_did o) = Some from -> sendable E m -> few_custom (m_jwm m) ->
  sig_sign E sa ssk (sign_input (as_jws m sa)) = Some s ->
  seal E rnd (set_typ (with_body o (jws_tree (as_jws m sa) s)) DidCommJws) sk keys = Ok text -> nth_error (dh_to (m_did o)) i = Some dest -> String.length rsk = 32 ->
  known_key E dest (given_key keys i) (x_pub E rsk) -> known_key E from spk (x_pub E sk) -> others_closed E rnd o sk keys rsk i -> receive E text (Some rsk) spk gpk = Ok m' ->
  exists key, signing_key gpk (jh_kid (m_jwm o)) = Ok key /\ sig_verify E sa key (sign_input (as_jws m sa)) s = Some true.
Proof.
  intros E rnd o m sk keys sa ssk s text i dest rsk spk gpk from m' HE HC HR HS HF HA HFr HSm HFm H1 HT HN L HK HSK HB HRec.
  set (sm := set_typ (with_body o (jws_tree (as_jws m sa) s)) DidCommJws) in *.
  assert (HSM : sendable E sm).
  { unfold sm, set_typ. apply with_jwm_sendable; [now apply jws_tree_sendable|]. apply good_typ. exact (sendable_header E o HS). }
  destruct (seal_receive_jwe E rnd sm sk keys text i dest rsk spk from HE HC HR HSM HF HFr HT HN L HK HSK HB) as [rs [G1 [_ [G2 G3]]]].
  assert (HAL : jh_alg (m_jwm o) <> None). { apply seal_text in HT. destruct HT as [a [_ [_ [_ [_ [HT _]]]]]]. change (jh_alg (m_jwm sm)) with (jh_alg (m_jwm o)) in HT. congruence. }
  pose proof (with_recipients_sendable E sm rs HSM G1) as HSR. pose proof (re_message_same E 3 (with_recipients sm (Some rs)) HE) as HM. pose proof (same_sendable E _ _ HM HSR) as HS'.
  assert (HA' : avoids envelope_names (dh_other (m_did (re_message (rt E 3) (with_recipients sm (Some rs)))))).
  { destruct HM as [_ [HM _]]. eapply avoids_perm; [|exact HA]. apply HM. }
  unfold receive in HRec. rewrite G3 in HRec. cbn [rbind is_jwe_type oerr] in HRec. rewrite G2 in HRec. cbn [rbind] in HRec. rewrite (classify_message E 4 _ HS' HA') in HRec. cbn [rbind] in HRec.
  change (is_jws_type (jh_typ (m_jwm (re_message (rt E 3) (with_recipients sm (Some rs)))))) with true in HRec. cbv iota in HRec.
  unfold receive_jws in HRec. rewrite (sendable_from_str E 5 _ HS') in HRec.
  change (jh_alg (m_jwm (re_message (rt E 5) (re_message (rt E 3) (with_recipients sm (Some rs)))))) with (jh_alg (m_jwm o)) in HRec.
  change (jh_kid (m_jwm (re_message (rt E 5) (re_message (rt E 3) (with_recipients sm (Some rs)))))) with (jh_kid (m_jwm o)) in HRec.
  change (get_body (re_message (rt E 5) (re_message (rt E 3) (with_recipients sm (Some rs))))) with (print (jws_tree (as_jws m sa) s)) in HRec.
  rewrite <- jws_tree_eq in HRec. change (print (ser_jws (sign_env (as_jws m sa) s))) with (jws_json (sign_env (as_jws m sa) s)) in HRec.
  destruct (jh_alg (m_jwm o)) as [alg|]; [|congruence].
  destruct (signing_key gpk (jh_kid (m_jwm o))) as [key| |]; [|discriminate|discriminate]. exists key. split; [reflexivity|]. cbn [rbind] in HRec.
  destruct (verify E (rt E 6) (rt E 7) (jws_json (sign_env (as_jws m sa) s)) key) as [v| |] eqn:EV; [|discriminate|discriminate].
  assert (HG : good_header (m_jwm (as_jws m sa))) by (apply as_jws_good; now apply (sendable_header E)).
  apply verify_ok in EV. destruct EV as [w [l [pre [x [post [raw [V1 [V2 [V3 [_ [V4 _]]]]]]]]]]].
  destruct (jws_round (rt E 6) _ (sign_env_good (as_jws m sa) s HG)) as [J _]. rewrite J in V1. apply some_inj in V1. subst w.
  destruct (sign_env_entries (rt E 6) (as_jws m sa) s HG) as [l' [L1 [L2 _]]]. apply has_entries_iff in L1, V2. rewrite V2 in L1. apply ok_inj in L1. subst l'.
  assert (HX : x = re_signature (rt E 6) (sign_entry (as_jws m sa) s)) by (rewrite Forall_forall in L2; apply L2; rewrite V3; apply in_elt). subst x.
  rewrite sign_env_payload in V4. rewrite (check_signed E (rt E 6) (as_jws m sa) sa (sig_alg_name sa) s key) in V4; [|apply sign_get; reflexivity|apply sig_alg_name_of].
  apply oerr_ok in V4. unfold sign_input. rewrite re_jwm_few in V4; [exact V4|now apply env_drt|exact HFm].
Qed.
(** The text of a signed message, set as a body. *)
Lemma signed_body : forall E k o m sa ssk signed, sign (as_jws m sa) (signer E sa) ssk = Ok signed ->
  exists s, sig_sign E sa ssk (sign_input (as_jws m sa)) = Some s /\ set_body (rt E k) o signed = Ok (with_body o (jws_tree (as_jws m sa) s)).
Proof.
  intros E k o m sa ssk signed H. apply sign_ok in H. destruct H as [s [_ [H ->]]]. apply signer_ok in H. exists s. split; [exact H|].
  unfold jws_json. rewrite jws_tree_eq. apply set_body_tree.
Qed.
(** A message with another key id. *)
Lemma kid_sendable : forall E o kid, rust_string kid -> sendable E o -> sendable E (set_kid o kid).
Proof.
  intros E o kid HX HS. replace (set_kid o kid) with (with_jwm o (jh_with_kid (m_jwm o) (Some kid))) by (unfold set_kid; destruct (jh_kid (m_jwm o)); reflexivity).
  apply with_jwm_sendable; [exact HS|]. apply good_kid; [exact HX|]. exact (sendable_header E o HS).
Qed.
Lemma set_kid_eq : forall o kid, set_kid o kid = with_jwm o (jh_with_kid (m_jwm o) (Some kid)).
Proof. intros o kid. unfold set_kid. destruct (jh_kid (m_jwm o)); reflexivity. Qed.
Lemma hex_rust : forall pk, rust_string (hex_encode pk).
Proof.
  intros pk. apply utf8_ascii. induction pk as [|c s IH]; [reflexivity|]. cbn [hex_encode sall]. rewrite IH, andb_true_r.
  apply (ascii_sweep (fun c => (is_ascii (hexdig (code c / 16)) && is_ascii (hexdig (code c mod 16)))%bool)). vm_compute. reflexivity.
Qed.
(** Hexadecimal text has an even length. *)
Lemma hex_even : forall n s t, String.length s <= n -> hex_decode s = Some t -> Nat.even (String.length s) = true.
Proof.
  induction n as [|n IH]; intros s t HL H.
  - destruct s; [reflexivity|cbn in HL; lia].
  - destruct s as [|a [|b r]]; [reflexivity|discriminate|]. cbn [hex_decode] in H. destruct (hexval a), (hexval b), (hex_decode r) as [u|] eqn:ER; try discriminate.
    cbn [String.length] in *. change (Nat.even (String.length r) = true). apply (IH r u); [lia|exact ER].
Qed.
Lemma hex_odd : forall s, Nat.even (String.length s) = false -> hex_decode s = None.
Proof. intros s H. destruct (hex_decode s) as [t|] eqn:ES; [|reflexivity]. apply (hex_even (String.length s) s t (le_n _)) in ES. congruence. Qed.

(** ** C78 *)

(** Anybody signs a message with any content, any sender named in it, with an own key, and seals it under the own name in a message that names this key:
    a recipient who passes no verification key gets it as a signed message of the one named. *)
Theorem C78_forged : forall E k m o rnd mine keys sa ssk pk signed, env_ok E -> crypto_ok E -> sendable E m -> few_custom (m_jwm m) -> sendable E o -> few_custom (m_jwm o) ->
  key_pair E sa ssk pk -> sign (as_jws m sa) (signer E sa) ssk = Ok signed ->
  exists o', set_body (rt E k) (set_kid o (hex_encode pk)) signed = Ok o' /\ forall text me i dest rsk sender,
    rand_ok rnd -> avoids envelope_names (dh_other (m_did o)) -> dh_from (m_did o) = Some me ->
    seal E rnd (set_typ o' DidCommJws) mine keys = Ok text -> nth_error (dh_to (m_did o)) i = Some dest -> String.length rsk = 32 ->
    known_key E dest (given_key keys i) (x_pub E rsk) -> known_key E me sender (x_pub E mine) -> others_closed E rnd o mine keys rsk i ->
    exists m', receive E text (Some rsk) sender None = Ok m' /\ same_message (with_jwm m jwm_default) m' /\ dh_from (m_did m') = dh_from (m_did m).
Proof.
  intros E k m o rnd mine keys sa ssk pk signed HE HC HS HF HSo HFo HP HG.
  destruct (signed_body E k (set_kid o (hex_encode pk)) m sa ssk signed HG) as [s [H1 H2]]. rewrite H2. eexists. split; [reflexivity|].
  intros text me i dest rsk sender HR HA HFr HT HN L HK HSK HB. pose proof (kid_sendable E o (hex_encode pk) (hex_rust pk) HSo) as HSk.
  rewrite set_kid_eq in HSk, HT. eexists.
  split; [refine (carried_key E rnd _ m mine keys sa ssk s text i dest rsk sender None me pk HE HC HR HSk HFo HA HFr HS HF H1 HT HN L HK HSK HB _ HP)|].
  - change (oerr (hex_decode (hex_encode pk)) EJwsParse = Ok pk). rewrite hex_decode_encode. reflexivity.
  - assert (HM : same_message (with_jwm m jwm_default) (re_message (rt E 9) (re_message (rt E 7) (with_jwm m jwm_default)))).
    { eapply same_message_trans; [|apply re_message_same; exact HE]. now apply re_message_same. }
    split; [exact HM|]. symmetry. apply HM.
Qed.
(** The key named in the signed message does not count: if the message around it names none, or not in hexadecimal, nothing is delivered, however valid the signature. *)
Theorem C78_inner_ignored : forall E k m o rnd mine keys sa ssk signed, env_ok E -> crypto_ok E -> sendable E m -> few_custom (m_jwm m) -> sendable E o -> few_custom (m_jwm o) ->
  (forall kid, jh_kid (m_jwm o) = Some kid -> hex_decode kid = None) -> sign (as_jws m sa) (signer E sa) ssk = Ok signed ->
  exists o', set_body (rt E k) o signed = Ok o' /\ forall text me i dest rsk sender,
    rand_ok rnd -> avoids envelope_names (dh_other (m_did o)) -> dh_from (m_did o) = Some me ->
    seal E rnd (set_typ o' DidCommJws) mine keys = Ok text -> nth_error (dh_to (m_did o)) i = Some dest -> String.length rsk = 32 ->
    known_key E dest (given_key keys i) (x_pub E rsk) -> known_key E me sender (x_pub E mine) -> others_closed E rnd o mine keys rsk i ->
    receive E text (Some rsk) sender None = Err EJwsParse.
Proof.
  intros E k m o rnd mine keys sa ssk signed HE HC HS HF HSo HFo HKid HG.
  destruct (signed_body E k o m sa ssk signed HG) as [s [H1 H2]]. rewrite H2. eexists. split; [reflexivity|].
  intros text me i dest rsk sender HR HA HFr HT HN L HK HSK HB.
  apply (carried_refused E rnd o m mine keys sa ssk s text i dest rsk sender None me EJwsParse HE HC HR HSo HFo HA HFr HS HF H1 HT HN L HK HSK HB).
  unfold signing_key. destruct (jh_kid (m_jwm o)) as [kid|]; [|reflexivity]. rewrite (HKid kid eq_refl). reflexivity.
Qed.
(** What is delivered without a given key was checked with the key that the message around names, and with no other. *)
Theorem C78_outer_decides : forall E k m o rnd mine keys sa ssk signed, env_ok E -> crypto_ok E -> sendable E m -> few_custom (m_jwm m) -> sendable E o -> few_custom (m_jwm o) ->
  sign (as_jws m sa) (signer E sa) ssk = Ok signed ->
  exists o' s, set_body (rt E k) o signed = Ok o' /\ sig_sign E sa ssk (sign_input (as_jws m sa)) = Some s /\ forall text me i dest rsk sender m',
    rand_ok rnd -> avoids envelope_names (dh_other (m_did o)) -> dh_from (m_did o) = Some me ->
    seal E rnd (set_typ o' DidCommJws) mine keys = Ok text -> nth_error (dh_to (m_did o)) i = Some dest -> String.length rsk = 32 ->
    known_key E dest (given_key keys i) (x_pub E rsk) -> known_key E me sender (x_pub E mine) -> others_closed E rnd o mine keys rsk i ->
    receive E text (Some rsk) sender None = Ok m' ->
    exists kid key, jh_kid (m_jwm o) = Some kid /\ hex_decode kid = Some key /\ sig_verify E sa key (sign_input (as_jws m sa)) s = Some true.
Proof.
  intros E k m o rnd mine keys sa ssk signed HE HC HS HF HSo HFo HG.
  destruct (signed_body E k o m sa ssk signed HG) as [s [H1 H2]]. rewrite H2. eexists. exists s. split; [reflexivity|]. split; [exact H1|].
  intros text me i dest rsk sender m' HR HA HFr HT HN L HK HSK HB HRec.
  destruct (carried_checked E rnd o m mine keys sa ssk s text i dest rsk sender None me m' HE HC HR HSo HFo HA HFr HS HF H1 HT HN L HK HSK HB HRec) as [key [H3 H4]].
  unfold signing_key in H3. destruct (jh_kid (m_jwm o)) as [kid|]; [|discriminate]. apply oerr_ok in H3. exists kid, key. auto.
Qed.
(** So it is with every envelope of [seal_signed] for which no key is given. *)
Theorem C78_seal_signed : forall E rnd m sk keys sa ssk text i dest rsk sender from, env_ok E -> crypto_ok E -> rand_ok rnd -> sendable E m -> few_custom (m_jwm m) ->
  avoids envelope_names (dh_other (m_did m)) -> dh_from (m_did m) = Some from -> (forall kid, jh_kid (m_jwm m) = Some kid -> hex_decode kid = None) ->
  seal_signed E rnd m sk keys sa ssk = Ok text -> nth_error (dh_to (m_did m)) i = Some dest -> String.length rsk = 32 ->
  known_key E dest (given_key keys i) (x_pub E rsk) -> known_key E from sender (x_pub E sk) -> others_closed E rnd m sk keys rsk i ->
  receive E text (Some rsk) sender None = Err EJwsParse.
Proof.
  intros E rnd m sk keys sa ssk text i dest rsk sender from HE HC HR HS HF HA HFr HKid HT HN L HK HSK HB.
  apply seal_signed_ok in HT. destruct HT as [s [H1 HT]].
  apply (carried_refused E rnd m m sk keys sa ssk s text i dest rsk sender None from EJwsParse HE HC HR HS HF HA HFr HS HF H1 HT HN L HK HSK HB).
  unfold signing_key. destruct (jh_kid (m_jwm m)) as [kid|]; [|reflexivity]. rewrite (HKid kid eq_refl). reflexivity.
Qed.
(** That is what [as_jwe] leads to: the key id that it writes for a given key is the base64 text of a key of the recipient, never hexadecimal; the one that it takes
    from a DID document is not hexadecimal if it is a DID URL. *)
Theorem C78_as_jwe : forall E R rnd m a key sk keys sa ssk text i dest rsk sender from, env_ok E -> crypto_ok E -> rand_ok rnd ->
  sendable E (as_jwe R m a key) -> few_custom (m_jwm m) -> avoids envelope_names (dh_other (m_did m)) -> dh_from (m_did m) = Some from ->
  match key with
  | Some k => String.length k = 32
  | None => exists doc, R from = Some doc /\ forall curve kid, doc_key_id doc curve = Some kid -> exists rest, kid = "did:" ++ rest
  end ->
  seal_signed E rnd (as_jwe R m a key) sk keys sa ssk = Ok text -> nth_error (dh_to (m_did m)) i = Some dest -> String.length rsk = 32 ->
  known_key E dest (given_key keys i) (x_pub E rsk) -> known_key E from sender (x_pub E sk) -> others_closed E rnd (as_jwe R m a key) sk keys rsk i ->
  receive E text (Some rsk) sender None = Err EJwsParse.
Proof.
  intros E R rnd m a key sk keys sa ssk text i dest rsk sender from HE HC HR HS HF HA HFr HKey HT HN L HK HSK HB.
  assert (HX : exists h, as_jwe R m a key = with_jwm m h /\ few_custom h /\ forall kid, jh_kid h = Some kid -> hex_decode kid = None).
  { unfold as_jwe. destruct key as [k|].
    - eexists. split; [reflexivity|]. split; [destruct a; exact HF|]. intros kid H. cbn [jh_with_kid jh_kid] in H. injection H as <-.
      apply hex_odd. rewrite b64_encode_length, HKey. reflexivity.
    - rewrite HFr. destruct HKey as [doc [-> HD]]. eexists. split; [reflexivity|]. split; [destruct a; exact HF|]. intros kid H. cbn [jh_with_kid jh_kid] in H.
      apply HD in H. destruct H as [rest ->]. reflexivity. }
  destruct HX as [h [HX [HFh HKid]]]. rewrite HX in HS, HT, HB.
  exact (C78_seal_signed E rnd (with_jwm m h) sk keys sa ssk text i dest rsk sender from HE HC HR HS HFh HA HFr HKid HT HN L HK HSK HB).
Qed.
(** The forgery with the modelled key agreement, ciphers and signatures. *)
Theorem C78_real : forall E k m o rnd mine keys seed signed, orders_ok E -> String.length seed = 32 ->
  sendable (whole (eddsa E)) m -> few_custom (m_jwm m) -> sendable (whole (eddsa E)) o -> few_custom (m_jwm o) ->
  sign (as_jws m EdDsa) (signer (whole (eddsa E)) EdDsa) (seed ++ ed_public seed) = Ok signed ->
  exists o', set_body (rt (whole (eddsa E)) k) (set_kid o (hex_encode (ed_public seed))) signed = Ok o' /\ forall text me dest rest rsk sender,
    rand_ok rnd -> avoids envelope_names (dh_other (m_did o)) -> dh_from (m_did o) = Some me ->
    seal (whole (eddsa E)) rnd (set_typ o' DidCommJws) mine keys = Ok text -> dh_to (m_did o) = dest :: rest -> String.length rsk = 32 ->
    known_key E dest (given_key keys 0) (x25519_base rsk) -> known_key E me sender (x25519_base mine) ->
    exists m', receive (whole (eddsa E)) text (Some rsk) sender None = Ok m' /\ same_message (with_jwm m jwm_default) m' /\ dh_from (m_did m') = dh_from (m_did m).
Proof.
  intros E k m o rnd mine keys seed signed HO HL HS HF HSo HFo HG. destruct (C69_lawful (eddsa E) HO) as [HE HC].
  destruct (C78_forged (whole (eddsa E)) k m o rnd mine keys EdDsa (seed ++ ed_public seed) (ed_public seed) signed HE HC HS HF HSo HFo (C70_key_pair _ _ HL) HG) as [o' [HB HZ]].
  exists o'. split; [exact HB|]. intros text me dest rest rsk sender HR HA HFr HT HN L HK HSK.
  apply (HZ text me 0 dest rsk sender); try assumption.
  - rewrite HN. reflexivity.
  - apply closed_first.
Qed.

(** Mallory writes to Dave in the name of Alice: first with the own key named around the message, then without. *)
Definition mallory_key : string := srepeat 32 "m".
Definition ex_around : message :=
  with_did (ex_jwe XC20P) (dh_with_to (dh_with_from (m_did (ex_jwe XC20P)) (Some "did:toy:mallory")) ["did:toy:dave"]).
Lemma ex_around_sendable : sendable toy ex_around.
Proof. unfold ex_around, ex_jwe, ex_one, ex_one_jwk, ex_did, ex_body, ex_attachment. send_msg. Qed.
Lemma ex_around_seals : forall kid signed o', set_body (rt toy 2) (with_jwm ex_around (jh_with_kid (m_jwm ex_around) kid)) signed = Ok o' ->
  exists text, seal toy ex_rand (set_typ o' DidCommJws) mallory_key (Some [Some dave_key]) = Ok text.
Proof.
  intros kid signed o' HO. unfold set_body in HO. destruct (oerr (parse signed) ESerde) as [j| |]; [|discriminate|discriminate]. cbn [rbind] in HO.
  destruct (oerr (value_of (rt toy 2) max_depth j) ESerde) as [b| |]; [|discriminate|discriminate]. cbn [rbind] in HO. apply ok_inj in HO. subst o'.
  apply (seal_total toy ex_rand _ mallory_key (Some [Some dave_key]) XC20P).
  - exact toy_crypto.
  - exact toy_total.
  - exact ex_rand_ok.
  - discriminate.
  - reflexivity.
  - apply srepeat_length.
  - discriminate.
  - discriminate.
  - intros l H. injection H as <-. reflexivity.
  - intros [|n] dest H; [|destruct n; discriminate]. exists dave_key. split; [now left|]. cbn. lia.
Qed.
Example C78_example_forged : forall sa, exists signed o' text m', sign (as_jws ex_one sa) (signer toy sa) "mallory" = Ok signed /\
  set_body (rt toy 2) (set_kid ex_around (hex_encode "mallory")) signed = Ok o' /\
  seal toy ex_rand (set_typ o' DidCommJws) mallory_key (Some [Some dave_key]) = Ok text /\
  receive toy text (Some dave_key) (Some mallory_key) None = Ok m' /\ dh_from (m_did m') = Some "did:toy:alice".
Proof.
  intros sa. destruct (toy_signs ex_one sa "mallory") as [signed HG]. exists signed.
  destruct (C78_forged toy 2 ex_one ex_around ex_rand mallory_key (Some [Some dave_key]) sa "mallory" "mallory" signed toy_env toy_crypto ex_one_sendable ex_one_few
    ex_around_sendable (ex_jwe_few XC20P) (toy_key_pair sa "mallory") HG) as [o' [HO HZ]].
  destruct (ex_around_seals (Some (hex_encode "mallory")) signed o') as [text HT]; [rewrite <- set_kid_eq; exact HO|].
  exists o', text. destruct (HZ text "did:toy:mallory" 0 "did:toy:dave" dave_key (Some mallory_key)) as [m' [H1 [_ H2]]].
  - exact ex_rand_ok.
  - exact ex_one_avoids.
  - reflexivity.
  - exact HT.
  - reflexivity.
  - apply srepeat_length.
  - now left.
  - now left.
  - apply closed_first.
  - exists m'. rewrite H2. tauto.
Qed.
Example C78_example_ignored : forall sa, exists signed o' text, sign (as_jws (set_kid ex_one (hex_encode "signing")) sa) (signer toy sa) "signing" = Ok signed /\
  set_body (rt toy 2) (set_kid ex_around "did:toy:alice#1") signed = Ok o' /\
  seal toy ex_rand (set_typ o' DidCommJws) mallory_key (Some [Some dave_key]) = Ok text /\
  receive toy text (Some dave_key) (Some mallory_key) None = Err EJwsParse.
Proof.
  intros sa. destruct (toy_signs (set_kid ex_one (hex_encode "signing")) sa "signing") as [signed HG]. exists signed.
  assert (HKid : forall kid, jh_kid (m_jwm (set_kid ex_around "did:toy:alice#1")) = Some kid -> hex_decode kid = None).
  { intros kid H. rewrite set_kid_eq in H. cbn [with_jwm m_jwm jh_with_kid jh_kid] in H. injection H as <-. reflexivity. }
  destruct (C78_inner_ignored toy 2 (set_kid ex_one (hex_encode "signing")) (set_kid ex_around "did:toy:alice#1") ex_rand mallory_key (Some [Some dave_key]) sa "signing" signed
    toy_env toy_crypto) as [o' [HO HZ]].
  - apply kid_sendable; [apply hex_rust|exact ex_one_sendable].
  - exact ex_one_few.
  - apply kid_sendable; [reflexivity|exact ex_around_sendable].
  - exact (ex_jwe_few XC20P).
  - exact HKid.
  - exact HG.
  - destruct (ex_around_seals (Some "did:toy:alice#1") signed o') as [text HT]; [rewrite <- set_kid_eq; exact HO|]. exists o', text.
    assert (HX : receive toy text (Some dave_key) (Some mallory_key) None = Err EJwsParse); [|tauto].
    apply (HZ text "did:toy:mallory" 0 "did:toy:dave" dave_key (Some mallory_key)).
    + exact ex_rand_ok.
    + exact ex_one_avoids.
    + reflexivity.
    + exact HT.
    + reflexivity.
    + apply srepeat_length.
    + now left.
    + now left.
    + apply closed_first.
Qed.
(** With the key of the signer the message is delivered, without it is not. *)
Example C78_example_as_jwe : forall a sa, In a [XC20P; A256GCM] -> exists text,
  seal_signed toy ex_rand (as_jwe (resolve toy) ex_one a (Some bob_key)) alice_key (Some ex_keys) sa "signing" = Ok text /\
  receive toy text (Some carol_key) (Some alice_key) None = Err EJwsParse /\
  exists m', receive toy text (Some carol_key) (Some alice_key) (Some "signing") = Ok m'.
Proof.
  intros a sa HA. destruct (ex_signed_seals a sa HA) as [text HT]. exists text. split; [exact HT|].
  assert (G1 : receive toy text (Some carol_key) (Some alice_key) None = Err EJwsParse).
  { apply (C78_as_jwe toy (resolve toy) ex_rand ex_one a (Some bob_key) alice_key (Some ex_keys) sa "signing" text 1 "did:toy:carol" carol_key (Some alice_key) "did:toy:alice").
    - exact toy_env.
    - exact toy_crypto.
    - exact ex_rand_ok.
    - exact (ex_jwe_sendable a).
    - exact ex_one_few.
    - exact ex_one_avoids.
    - reflexivity.
    - apply srepeat_length.
    - exact HT.
    - reflexivity.
    - apply srepeat_length.
    - now left.
    - now left.
    - apply closed_bound. exact toy_crypto_bound. }
  split; [exact G1|].
  destruct (C23_round_trip toy ex_rand (ex_jwe a) alice_key (Some ex_keys) sa "signing" text 1 "did:toy:carol" carol_key (Some alice_key) "signing" "did:toy:alice") as [m' [H1 _]].
  - exact toy_env.
  - exact toy_crypto.
  - exact ex_rand_ok.
  - apply ex_jwe_sendable.
  - apply ex_jwe_few.
  - exact ex_one_avoids.
  - reflexivity.
  - exact HT.
  - reflexivity.
  - apply srepeat_length.
  - now left.
  - now left.
  - apply closed_bound. exact toy_crypto_bound.
  - apply toy_key_pair.
  - exists m'. exact H1.
Qed.
(** The example of README.md:183-209 and src/lib.rs:274-300, for two recipients: the text that it sends is refused where it is received without a key. *)
Example C78_example_readme : forall sa, exists text,
  seal_signed toy ex_rand (set_kid (ex_jwe XC20P) "Ef1sFuyOozYm3CEY4iCdwqxiSyXZ5Br-eUDdQXk6jaQ") alice_key (Some ex_keys) sa "signing" = Ok text /\
  receive toy text (Some bob_key) (Some alice_key) None = Err EJwsParse.
Proof.
  intros sa. rewrite set_kid_eq.
  assert (HT : exists text, seal_signed toy ex_rand (with_jwm (ex_jwe XC20P) (jh_with_kid (m_jwm (ex_jwe XC20P)) (Some "Ef1sFuyOozYm3CEY4iCdwqxiSyXZ5Br-eUDdQXk6jaQ")))
    alice_key (Some ex_keys) sa "signing" = Ok text).
  { apply (seal_signed_total toy ex_rand _ alice_key (Some ex_keys) XC20P).
    - exact toy_crypto.
    - exact toy_total.
    - exact ex_rand_ok.
    - discriminate.
    - reflexivity.
    - apply srepeat_length.
    - discriminate.
    - discriminate.
    - intros l H. injection H as <-. reflexivity.
    - exact ex_keys_known.
    - intros msg H. cbn [toy sig_sign] in H. discriminate. }
  destruct HT as [text HT]. exists text. split; [exact HT|].
  apply (C78_seal_signed toy ex_rand (with_jwm (ex_jwe XC20P) (jh_with_kid (m_jwm (ex_jwe XC20P)) (Some "Ef1sFuyOozYm3CEY4iCdwqxiSyXZ5Br-eUDdQXk6jaQ"))) alice_key (Some ex_keys) sa "signing" text 0 "did:toy:bob" bob_key (Some alice_key) "did:toy:alice" toy_env toy_crypto ex_rand_ok).
  - rewrite <- set_kid_eq. apply kid_sendable; [reflexivity|apply ex_jwe_sendable].
  - exact (ex_jwe_few XC20P).
  - exact ex_one_avoids.
  - reflexivity.
  - intros kid H. cbn [with_jwm m_jwm jh_with_kid jh_kid] in H. injection H as <-. reflexivity.
  - exact HT.
  - reflexivity.
  - apply srepeat_length.
  - now left.
  - now left.
  - apply closed_first.
Qed.

Print Assumptions C78_forged.
Print Assumptions C78_inner_ignored.
Print Assumptions C78_outer_decides.
Print Assumptions C78_seal_signed.
Print Assumptions C78_as_jwe.
Print Assumptions C78_real.
