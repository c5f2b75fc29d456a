(** Routed envelopes and envelopes that are signed and then sealed: C21, C23. *)

From Coq Require Import Ascii String Arith NArith List Bool Permutation Sorted Lia.
From Verif Require Import Bytes BytesFacts Base64 Base64Facts Utf8 Utf8Facts Json JsonFacts Value ValueFacts Types Serde SerdeFacts
  Message Attach ChaCha Envelope Spec SpecFacts DecodeFacts PlainFacts CodecFacts SetterFacts SpecText CryptoLaws Examples PropPlain
  SpecSign HeaderFacts SignFacts SignFacts2 PropSign SpecSeal SealFacts SealFacts2 SealFacts3 PropSeal SpecRoute RouteFacts.
Import ListNotations.
Local Open Scope string_scope.

(** ** C21 *)

(** The mediator gets a forward message from the sender, addressed to nobody else, that names the first recipient and contains,
    byte for byte, what [seal] makes of the original message. *)
Theorem C21_mediator : forall E rnd1 rnd2 uuid m sk keys mediator mkey text from msk sender signing,
  env_ok E -> crypto_ok E -> rand_ok rnd2 -> resolved_ids E ->
  rust_string uuid -> rust_string mediator -> Forall rust_string (dh_to (m_did m)) -> rust_string from -> dh_from (m_did m) = Some from ->
  routed_by E rnd1 rnd2 uuid m sk keys mediator mkey = Ok text -> String.length msk = 32 ->
  known_key E mediator mkey (x_pub E msk) -> known_key E from sender (x_pub E sk) ->
  exists f next rest inner, receive E text (Some msk) sender signing = Ok f /\
    dh_to (m_did m) = next :: rest /\ seal E rnd1 m sk keys = Ok inner /\
    forwards (m_body f) next inner /\ de_mediated (m_body f) = Some {| md_next := next; md_payload := inner |} /\
    jh_typ (m_jwm f) = DidCommForward /\
    dh_to (m_did f) = [mediator] /\ dh_from (m_did f) = Some from /\ dh_id (m_did f) = uuid /\ m_attachments f = [].
Proof.
  intros E rnd1 rnd2 uuid m sk keys mediator mkey text from msk spk gpk HE HC HR HI U1 U2 U3 U4 HF HT L HK HSK.
  destruct (routed_mediator E rnd1 rnd2 uuid m sk keys mediator mkey text from msk spk gpk HE HC HR HI U1 U2 U3 U4 HF HT L HK HSK)
    as [inner [next [rest [a [rs [H1 [H2 [H3 [_ H4]]]]]]]]].
  pose proof (outer_shell_did E uuid from a mediator mkey) as HD.
  destruct (outer_shell_rest E uuid from a mediator mkey) as [_ [_ [_ [R4 [R5 _]]]]].
  revert H3 H4. generalize dependent (outer_shell E uuid from a mediator mkey). intros o HD R4 R5 H3 H4.
  eexists. exists next, rest, inner. split; [exact H4|]. split; [exact H1|]. split; [exact H2|].
  split; [apply ser_mediated_forwards|].
  assert (HM : same_message (with_recipients (with_body o (ser_mediated {| md_next := next; md_payload := inner |})) (Some rs))
      (re_message (rt E 9) (re_message (rt E 3) (with_recipients (with_body o (ser_mediated {| md_next := next; md_payload := inner |})) (Some rs))))).
  { eapply same_message_trans; [|apply re_message_same; exact HE]. now apply re_message_same. }
  destruct HM as [M1 [M2 [_ [_ M5]]]]. destruct M1 as [M1 _]. destruct M2 as [M2 [_ [_ [_ [M3 [M4 _]]]]]].
  cbn [with_recipients with_body m_jwm m_did m_attachments] in M1, M2, M3, M4, M5, H3.
  split; [apply de_mediated_ser|]. split; [now rewrite <- M1|]. split; [now rewrite <- M3|]. split; [rewrite <- M4, HD; reflexivity|].
  split; [rewrite <- M2, HD; reflexivity|now rewrite <- M5].
Qed.
(** What the mediator extracts, the recipients can receive. *)
Theorem C21_recipient : forall E rnd1 rnd2 uuid m sk keys mediator mkey text from msk i dest rsk sender1 sender2 signing1 signing2,
  env_ok E -> crypto_ok E -> rand_ok rnd1 -> rand_ok rnd2 -> resolved_ids E -> rust_string uuid -> rust_string mediator ->
  sendable E m -> few_custom (m_jwm m) -> avoids envelope_names (dh_other (m_did m)) -> jh_typ (m_jwm m) <> DidCommJws -> dh_from (m_did m) = Some from ->
  routed_by E rnd1 rnd2 uuid m sk keys mediator mkey = Ok text ->
  String.length msk = 32 -> known_key E mediator mkey (x_pub E msk) -> known_key E from sender1 (x_pub E sk) ->
  nth_error (dh_to (m_did m)) i = Some dest -> String.length rsk = 32 ->
  known_key E dest (given_key keys i) (x_pub E rsk) -> known_key E from sender2 (x_pub E sk) -> others_closed E rnd1 m sk keys rsk i ->
  exists f next inner m', receive E text (Some msk) sender1 signing1 = Ok f /\ forwards (m_body f) next inner /\
    nth_error (dh_to (m_did m)) 0 = Some next /\
    receive E inner (Some rsk) sender2 signing2 = Ok m' /\ received m m'.
Proof.
  intros E rnd1 rnd2 uuid m sk keys mediator mkey text from msk i dest rsk spk1 spk2 gpk1 gpk2 HE HC HR1 HR2 HI U1 U2 HS HF HA HTy HFr HT L1 HK1 HSK1 HN L2 HK2 HSK2 HB.
  assert (HU : Forall rust_string (dh_to (m_did m)) /\ rust_string from).
  { pose proof (sd_rust E m HS) as HRm. apply rm_strings in HRm. unfold message_strings in HRm. rewrite Forall_forall in HRm.
    assert (HIn : forall x, In x (did_strings (m_did m)) -> rust_string x) by (intros x Hx; apply HRm; apply in_or_app; right; apply in_or_app; now left).
    unfold did_strings in HIn. split.
    - apply Forall_forall. intros x Hx. apply HIn. rewrite !in_app_iff. tauto.
    - apply HIn. rewrite !in_app_iff. rewrite HFr. cbn. tauto. }
  destruct HU as [HU1 HU2].
  destruct (C21_mediator E rnd1 rnd2 uuid m sk keys mediator mkey text from msk spk1 gpk1 HE HC HR2 HI U1 U2 HU1 HU2 HFr HT L1 HK1 HSK1)
    as [f [next [rest [inner [F1 [F2 [F3 [F4 _]]]]]]]].
  destruct (C13_mixed_keys E rnd1 m sk keys inner i dest rsk spk2 gpk2 from HE HC HR1 HS HF HA HTy HFr F3 HN L2 HK2 HSK2 HB) as [m' [G1 G2]].
  exists f, next, inner, m'. split; [exact F1|]. split; [exact F4|]. split; [now rewrite F2|]. split; [exact G1|exact G2].
Qed.
(** [forwards] determines the payload: there is only one thing the mediator can extract. *)
Theorem C21_payload_unique : forall body n1 p1 n2 p2, forwards body n1 p1 -> forwards body n2 p2 -> n1 = n2 /\ p1 = p2.
Proof.
  intros body n1 p1 n2 p2 [es [b [l [-> [H1 [H2 [H3 HD]]]]]]] [es' [b' [l' [G0 [G1 [G2 [G3 _]]]]]]]. injection G0 as <-.
  assert (HU : forall k (x y : json), In (k, x) es -> In (k, y) es -> x = y).
  { clear - HD. induction es as [|[k v] es IH]; intros k' x y []; inversion HD as [|? ? HN HD']; subst.
    - injection H as -> ->. intros [H|H]; [now injection H|]. elim HN. now apply (in_map fst) in H.
    - intros [G|G]; [injection G as -> ->; elim HN; now apply (in_map fst) in H|]. now apply (IH HD' k'). }
  pose proof (HU _ _ _ H1 G1) as K1. injection K1 as _ ->. split; [reflexivity|].
  pose proof (HU _ _ _ H2 G2) as K2. injection K2 as <-.
  clear - H3 G3. revert p2 G3. induction H3 as [|c l s H IH]; intros p2 G3; inversion G3 as [|c' l'' s' G]; subst; [reflexivity|].
  match goal with E : dec_of_N _ = dec_of_N _ |- _ => apply dec_of_N_inj, code_inj in E; subst end. f_equal. now apply IH.
Qed.
(** With good arguments [routed_by] succeeds. *)
Theorem C21_total : forall E rnd1 rnd2 uuid m sk keys alg a mediator mkey, crypto_ok E -> crypto_total E -> rand_ok rnd1 -> rand_ok rnd2 ->
  jh_alg (m_jwm m) = Some alg -> In (alg, a) wrap_table -> String.length sk = 32 -> dh_to (m_did m) <> [] ->
  (m_flat_jwe m = true -> List.length (dh_to (m_did m)) = 1) -> (forall l, keys = Some l -> List.length l = List.length (dh_to (m_did m))) ->
  (forall k dest, nth_error (dh_to (m_did m)) k = Some dest -> exists key, known_key E dest (given_key keys k) key /\ 32 <= String.length key) ->
  mediator <> "" -> (exists key, known_key E mediator mkey key /\ 32 <= String.length key) ->
  exists text, routed_by E rnd1 rnd2 uuid m sk keys mediator mkey = Ok text.
Proof.
  intros E rnd1 rnd2 uuid m sk keys alg a mediator mkey HC HT HR1 HR2 HA HI. apply crypto_alg_of_table, crypto_alg_of_ok in HI. destruct HI as [HU ->].
  now apply (routed_total E rnd1 rnd2 uuid m sk keys a).
Qed.
Definition mediator_key : string := srepeat 32 "m".
Lemma toy_ids : resolved_ids toy.
Proof.
  intros did doc crv id H1 H2. cbn [resolve toy] in H1.
  assert (HD : exists k, doc = toy_doc k).
  { destruct (String.eqb did "did:toy:alice"); [apply some_inj in H1; eauto|]. destruct (String.eqb did "did:toy:bob"); [apply some_inj in H1; eauto|discriminate]. }
  destruct HD as [k ->]. cbn [toy_doc doc_key_id] in H2. destruct (String.eqb crv "X25519"); [|discriminate]. apply some_inj in H2. subst id. reflexivity.
Qed.
(** Two recipients, a mediator with a given key, both algorithms; the second recipient receives. *)
Example C21_example : forall a, In a [XC20P; A256GCM] -> exists text f inner m',
  routed_by toy ex_rand ex_rand "urn:2" (ex_jwe a) alice_key (Some ex_keys) "did:toy:mediator" (Some mediator_key) = Ok text /\
  receive toy text (Some mediator_key) (Some alice_key) None = Ok f /\ forwards (m_body f) "did:toy:bob" inner /\
  receive toy inner (Some carol_key) (Some alice_key) None = Ok m' /\ received (ex_jwe a) m'.
Proof.
  intros a HA.
  assert (HT : exists text, routed_by toy ex_rand ex_rand "urn:2" (ex_jwe a) alice_key (Some ex_keys) "did:toy:mediator" (Some mediator_key) = Ok text).
  { apply (routed_total toy ex_rand ex_rand "urn:2" (ex_jwe a) alice_key (Some ex_keys) a).
    - exact toy_crypto.
    - exact toy_total.
    - exact ex_rand_ok.
    - exact ex_rand_ok.
    - intros ->. destruct HA as [H|[H|[]]]; discriminate.
    - destruct HA as [<-|[<-|[]]]; reflexivity.
    - apply srepeat_length.
    - destruct HA as [<-|[<-|[]]]; discriminate.
    - destruct HA as [<-|[<-|[]]]; discriminate.
    - intros l H. injection H as <-. reflexivity.
    - exact ex_keys_known.
    - discriminate.
    - exists mediator_key. split; [now left|]. unfold mediator_key. rewrite srepeat_length. lia. }
  destruct HT as [text HT]. exists text.
  destruct (C21_recipient toy ex_rand ex_rand "urn:2" (ex_jwe a) alice_key (Some ex_keys) "did:toy:mediator" (Some mediator_key) text "did:toy:alice" mediator_key
     1 "did:toy:carol" carol_key (Some alice_key) (Some alice_key) None None) as [f [next [inner [m' [H1 [H2 [H3 [H4 H5]]]]]]]].
  - exact toy_env.
  - exact toy_crypto.
  - exact ex_rand_ok.
  - exact ex_rand_ok.
  - exact toy_ids.
  - reflexivity.
  - reflexivity.
  - apply ex_jwe_sendable.
  - apply ex_jwe_few.
  - exact ex_one_avoids.
  - apply ex_jwe_typ.
  - reflexivity.
  - exact HT.
  - apply srepeat_length.
  - now left.
  - now left.
  - reflexivity.
  - apply srepeat_length.
  - now left.
  - now left.
  - apply closed_bound. exact toy_crypto_bound.
  - exists f, inner, m'. apply some_inj in H3. subst next. split; [exact HT|]. split; [exact H1|]. split; [exact H2|]. split; [exact H4|exact H5].
Qed.

(** ** C23 *)

(** The recipient gets the message that was signed; the header of the envelope is not part of it. *)
Theorem C23_round_trip : forall E rnd m sk keys sa ssk text i dest rsk sender gpk from,
  env_ok E -> crypto_ok E -> rand_ok rnd -> sendable E m -> few_custom (m_jwm m) -> avoids envelope_names (dh_other (m_did m)) -> dh_from (m_did m) = Some from ->
  seal_signed E rnd m sk keys sa ssk = Ok text -> nth_error (dh_to (m_did m)) i = Some dest -> String.length rsk = 32 ->
  known_key E dest (given_key keys i) (x_pub E rsk) -> known_key E from sender (x_pub E sk) -> others_closed E rnd m sk keys rsk i -> key_pair E sa ssk gpk ->
  exists m', receive E text (Some rsk) sender (Some gpk) = Ok m' /\ same_message (with_jwm m jwm_default) m' /\ flags_reset m'.
Proof.
  intros E rnd m sk keys sa ssk text i dest rsk spk gpk from HE HC HR HS HF HA HFr HT HN L HK HSK HB HP.
  eexists. split; [eapply (seal_signed_round_trip E rnd m sk keys sa ssk text i dest rsk spk gpk from); eassumption|]. split; [|apply re_message_flags].
  eapply same_message_trans; [|apply re_message_same; exact HE]. now apply re_message_same.
Qed.
(** The signature is checked: with a key under which the signer's signatures are not valid, the envelope is refused. *)
Theorem C23_wrong_key : forall E rnd m sk keys sa ssk text i dest rsk sender gpk from,
  env_ok E -> crypto_ok E -> rand_ok rnd -> sendable E m -> few_custom (m_jwm m) -> avoids envelope_names (dh_other (m_did m)) -> dh_from (m_did m) = Some from ->
  seal_signed E rnd m sk keys sa ssk = Ok text -> nth_error (dh_to (m_did m)) i = Some dest -> String.length rsk = 32 ->
  known_key E dest (given_key keys i) (x_pub E rsk) -> known_key E from sender (x_pub E sk) -> others_closed E rnd m sk keys rsk i ->
  (forall msg s, sig_sign E sa ssk msg = Some s -> sig_verify E sa gpk msg s <> Some true) ->
  forall m', receive E text (Some rsk) sender (Some gpk) <> Ok m'.
Proof.
  intros E rnd m sk keys sa ssk text i dest rsk spk gpk from HE HC HR HS HF HA HFr HT HN L HK HSK HB HP m' H.
  destruct (seal_signed_checked E rnd m sk keys sa ssk text i dest rsk spk gpk from m' HE HC HR HS HF HA HFr HT HN L HK HSK HB H) as [s [H1 H2]].
  exact (HP _ _ H1 H2).
Qed.
(** With good arguments and a signer that works, [seal_signed] succeeds. *)
Theorem C23_total : forall E rnd m sk keys alg a sa ssk, crypto_ok E -> crypto_total E -> rand_ok rnd ->
  jh_alg (m_jwm m) = Some alg -> In (alg, a) wrap_table -> String.length sk = 32 -> dh_to (m_did m) <> [] ->
  (m_flat_jwe m = true -> List.length (dh_to (m_did m)) = 1) -> (forall l, keys = Some l -> List.length l = List.length (dh_to (m_did m))) ->
  (forall k dest, nth_error (dh_to (m_did m)) k = Some dest -> exists key, known_key E dest (given_key keys k) key /\ 32 <= String.length key) ->
  (forall msg, sig_sign E sa ssk msg <> None) ->
  exists text, seal_signed E rnd m sk keys sa ssk = Ok text.
Proof.
  intros E rnd m sk keys alg a sa ssk HC HT HR HA HI. apply crypto_alg_of_table, crypto_alg_of_ok in HI. destruct HI as [HU ->].
  now apply (seal_signed_total E rnd m sk keys a sa ssk).
Qed.
Lemma ex_signed_seals : forall a sa, In a [XC20P; A256GCM] -> exists text, seal_signed toy ex_rand (ex_jwe a) alice_key (Some ex_keys) sa "signing" = Ok text.
Proof.
  intros a sa HA. apply (seal_signed_total toy ex_rand (ex_jwe a) alice_key (Some ex_keys) a).
  - exact toy_crypto.
  - exact toy_total.
  - exact ex_rand_ok.
  - intros ->. destruct HA as [H|[H|[]]]; discriminate.
  - destruct HA as [<-|[<-|[]]]; reflexivity.
  - apply srepeat_length.
  - destruct HA as [<-|[<-|[]]]; discriminate.
  - destruct HA as [<-|[<-|[]]]; discriminate.
  - intros l H. injection H as <-. reflexivity.
  - exact ex_keys_known.
  - intros msg H. cbn [toy sig_sign] in H. discriminate.
Qed.
Example C23_example : forall a sa, In a [XC20P; A256GCM] -> exists text m',
  seal_signed toy ex_rand (ex_jwe a) alice_key (Some ex_keys) sa "signing" = Ok text /\
  receive toy text (Some carol_key) (Some alice_key) (Some "signing") = Ok m' /\ same_message (with_jwm (ex_jwe a) jwm_default) m'.
Proof.
  intros a sa HA. destruct (ex_signed_seals a sa HA) as [text HT]. exists text.
  destruct (C23_round_trip toy ex_rand (ex_jwe a) alice_key (Some ex_keys) sa "signing" text 1 "did:toy:carol" carol_key (Some alice_key) "signing" "did:toy:alice") as [m' [H1 [H2 _]]].
  - exact toy_env.
  - exact toy_crypto.
  - exact ex_rand_ok.
  - apply ex_jwe_sendable.
  - apply ex_jwe_few.
  - exact ex_one_avoids.
  - reflexivity.
  - exact HT.
  - reflexivity.
  - apply srepeat_length.
  - now left.
  - now left.
  - apply closed_bound. exact toy_crypto_bound.
  - apply toy_key_pair.
  - exists m'. auto.
Qed.
(** The whole header of the envelope is lost: what comes back names no algorithm, no key and the default type. *)
Theorem C23_same_header_refuted : exists E rnd m sk keys sa ssk text rsk sender gpk m',
  env_ok E /\ crypto_ok E /\ rand_ok rnd /\ sendable E m /\ key_pair E sa ssk gpk /\
  seal_signed E rnd m sk keys sa ssk = Ok text /\ receive E text (Some rsk) sender (Some gpk) = Ok m' /\
  ~ same_header (m_jwm m) (m_jwm m').
Proof.
  assert (HA : In XC20P [XC20P; A256GCM]) by now left. destruct (C23_example XC20P EdDsa HA) as [text [m' [H1 [H2 H3]]]].
  exists toy, ex_rand, (ex_jwe XC20P), alice_key, (Some ex_keys), EdDsa, "signing", text, carol_key, (Some alice_key), "signing", m'.
  split; [exact toy_env|]. split; [exact toy_crypto|]. split; [exact ex_rand_ok|]. split; [apply ex_jwe_sendable|]. split; [apply toy_key_pair|].
  split; [exact H1|]. split; [exact H2|]. destruct H3 as [[_ [_ [_ [_ [H3 _]]]]] _]. intros [_ [_ [_ [_ [G _]]]]]. rewrite <- H3 in G.
  change (jh_alg (m_jwm (with_jwm (ex_jwe XC20P) jwm_default))) with (@None string) in G.
  change (jh_alg (m_jwm (ex_jwe XC20P))) with (Some "ECDH-1PU+XC20PKW") in G. discriminate G.
Qed.
(** Exact signatures: under another key they are not valid. *)
Example C23_wrong_key_example : forall a, In a [XC20P; A256GCM] -> exists text,
  seal_signed toy_exact_env ex_rand (ex_jwe a) alice_key (Some ex_keys) EdDsa "signing" = Ok text /\
  forall m', receive toy_exact_env text (Some carol_key) (Some alice_key) (Some "another") <> Ok m'.
Proof.
  intros a HA.
  assert (HT : exists text, seal_signed toy_exact_env ex_rand (ex_jwe a) alice_key (Some ex_keys) EdDsa "signing" = Ok text).
  { apply (seal_signed_total toy_exact_env ex_rand (ex_jwe a) alice_key (Some ex_keys) a).
    - constructor; [destruct (co_dh toy toy_crypto); constructor; assumption|exact (co_xc toy toy_crypto)|exact (co_gcm toy toy_crypto)].
    - destruct toy_total as [H1 H2]. constructor; [exact H1|exact H2].
    - exact ex_rand_ok.
    - intros ->. destruct HA as [H|[H|[]]]; discriminate.
    - destruct HA as [<-|[<-|[]]]; reflexivity.
    - apply srepeat_length.
    - destruct HA as [<-|[<-|[]]]; discriminate.
    - destruct HA as [<-|[<-|[]]]; discriminate.
    - intros l H. injection H as <-. reflexivity.
    - exact ex_keys_known.
    - intros msg H. cbn [toy_exact_env sig_sign] in H. discriminate. }
  destruct HT as [text HT]. exists text. split; [exact HT|].
  apply (C23_wrong_key toy_exact_env ex_rand (ex_jwe a) alice_key (Some ex_keys) EdDsa "signing" text 1 "did:toy:carol" carol_key (Some alice_key) "another" "did:toy:alice").
  - destruct toy_env as [H1 H2]. constructor; [exact H1|exact H2].
  - constructor; [destruct (co_dh toy toy_crypto); constructor; assumption|exact (co_xc toy toy_crypto)|exact (co_gcm toy toy_crypto)].
  - exact ex_rand_ok.
  - destruct (ex_jwe_sendable a) as [H1 H2 H3 H4 H5 H6 H7]. constructor; [exact H1|exact H2|exact H3|exact H4|exact H5|exact H6|exact H7].
  - apply ex_jwe_few.
  - exact ex_one_avoids.
  - reflexivity.
  - exact HT.
  - reflexivity.
  - apply srepeat_length.
  - now left.
  - now left.
  - apply closed_bound. constructor; [exact (cb_xc toy toy_crypto_bound)|exact (cb_gcm toy toy_crypto_bound)].
  - intros msg s H. cbn [toy_exact_env sig_sign sig_verify] in *. apply some_inj in H. subst s. cbn. discriminate.
Qed.

(** ** C30, C33: rotation data and attachments of messages that are signed, then sealed *)

Theorem C30_signed_sealed_round_trip : forall E rnd m sk keys sa ssk text i dest rsk sender gpk from,
  env_ok E -> crypto_ok E -> rand_ok rnd -> sendable E m -> few_custom (m_jwm m) -> avoids envelope_names (dh_other (m_did m)) -> dh_from (m_did m) = Some from ->
  seal_signed E rnd m sk keys sa ssk = Ok text -> nth_error (dh_to (m_did m)) i = Some dest -> String.length rsk = 32 ->
  known_key E dest (given_key keys i) (x_pub E rsk) -> known_key E from sender (x_pub E sk) -> others_closed E rnd m sk keys rsk i -> key_pair E sa ssk gpk ->
  exists m', receive E text (Some rsk) sender (Some gpk) = Ok m' /\ is_rotation m' = is_rotation m /\ get_prior m' = get_prior m.
Proof.
  intros E rnd m sk keys sa ssk text i dest rsk sender gpk from HE HC HR HS HF HA HFr HT HN L HK HSK HB HP.
  destruct (C23_round_trip E rnd m sk keys sa ssk text i dest rsk sender gpk from HE HC HR HS HF HA HFr HT HN L HK HSK HB HP) as [m' [H1 [H2 _]]].
  exists m'. split; [exact H1|]. destruct H2 as [_ [H _]]. assert (HPr : dh_from_prior (m_did m) = dh_from_prior (m_did m')) by apply H.
  unfold get_prior, is_rotation. rewrite HPr. split; reflexivity.
Qed.
Theorem C33_signed_sealed_round_trip : forall E rnd m sk keys sa ssk text i dest rsk sender gpk from,
  env_ok E -> crypto_ok E -> rand_ok rnd -> sendable E m -> few_custom (m_jwm m) -> avoids envelope_names (dh_other (m_did m)) -> dh_from (m_did m) = Some from ->
  seal_signed E rnd m sk keys sa ssk = Ok text -> nth_error (dh_to (m_did m)) i = Some dest -> String.length rsk = 32 ->
  known_key E dest (given_key keys i) (x_pub E rsk) -> known_key E from sender (x_pub E sk) -> others_closed E rnd m sk keys rsk i -> key_pair E sa ssk gpk ->
  exists m', receive E text (Some rsk) sender (Some gpk) = Ok m' /\ attachment_iter m' = attachment_iter m.
Proof.
  intros E rnd m sk keys sa ssk text i dest rsk sender gpk from HE HC HR HS HF HA HFr HT HN L HK HSK HB HP.
  destruct (C23_round_trip E rnd m sk keys sa ssk text i dest rsk sender gpk from HE HC HR HS HF HA HFr HT HN L HK HSK HB HP) as [m' [H1 [H2 _]]].
  exists m'. split; [exact H1|]. destruct H2 as [_ [_ [_ [_ H]]]]. symmetry. exact H.
Qed.

(** ** C02: a plain message with a custom header [signature] is replaced by what its body contains *)

Definition ex_outer (b : json) : message :=
  with_body (with_jwm (with_did ex_small (dh_with_other (m_did ex_small) [("signature", "x")])) (jh_with_alg (m_jwm ex_small) (Some "EdDSA"))) b.
Example C02_example_signature_body : exists m m', sendable toy m /\ In "signature" (map fst (dh_other (m_did m))) /\
  receive toy (as_raw_json m) None None (Some "k") = Ok m' /\ dh_id (m_did m') = dh_id (m_did ex_one) /\ m_body m' = m_body ex_one.
Proof.
  assert (HO : sendable toy (ex_outer JNull)) by (unfold ex_outer, ex_small; cbn; send_msg).
  destruct (toy_signs ex_one EdDsa "k") as [text HT]. pose proof HT as HT'. apply sign_ok in HT'. destruct HT' as [s [_ [_ Et]]].
  set (m := with_body (ex_outer JNull) (jws_tree (as_jws ex_one EdDsa) s)). exists m.
  assert (HS : sendable toy m) by (apply jws_tree_sendable; exact HO).
  destruct (C05_sign_verify toy ex_one EdDsa "k" "k" text 6 7 toy_env ex_one_sendable ex_one_few (toy_key_pair EdDsa "k") HT) as [v [HV [HM HF]]].
  assert (HB : get_body m = text). { rewrite Et. unfold m, get_body. cbn [with_body m_body]. rewrite <- jws_tree_eq. reflexivity. }
  assert (HSv : sendable toy v) by (eapply same_sendable; [exact HM|]; apply with_default_sendable; exact ex_one_sendable).
  exists (re_message (rt toy 9) v). split; [exact HS|]. split; [now left|]. split.
  - apply C02_signature_header_body; [exact HS|intros [G|[]]; discriminate|left; now left|]. split; [discriminate|].
    exists "k", v. split; [reflexivity|]. rewrite HB. split; [exact HV|]. exact (sendable_from_str toy 9 v HSv).
  - destruct (re_message_same toy 9 v toy_env) as [_ [D [_ [B _]]]]. destruct HM as [_ [D' [_ [B' _]]]]. split.
    + transitivity (dh_id (m_did v)); symmetry; [apply D|apply D'].
    + rewrite <- B. symmetry. exact B'.
Qed.

Print Assumptions C21_mediator.
Print Assumptions C21_recipient.
Print Assumptions C21_payload_unique.
Print Assumptions C21_total.
Print Assumptions C23_round_trip.
Print Assumptions C23_wrong_key.
Print Assumptions C23_total.
Print Assumptions C23_same_header_refuted.
Print Assumptions C30_signed_sealed_round_trip.
Print Assumptions C33_signed_sealed_round_trip.
