(** Signed envelopes: C05-C09, C11, C41 (signing half), C48-C50. *)

From Coq Require Import Ascii String Arith NArith List Bool Permutation Sorted Lia.
From Verif Require Import Bytes BytesFacts Base64 Base64Facts Utf8 Utf8Facts Json JsonFacts Value ValueFacts Types Serde SerdeFacts
  Message Attach Envelope Spec SpecFacts DecodeFacts PlainFacts PlainFacts2 CodecFacts SetterFacts CryptoLaws Examples
  SpecSign HeaderFacts PropValue SignFacts SignFacts2.
Import ListNotations.
Local Open Scope string_scope.

(** A message with an embedded key that has one custom member. *)
Definition ex_one_jwk : jwk :=
  {| jk_kty := Some "OKP"; jk_use := None; jk_crv := Some "X25519"; jk_key_ops := [KDeriveKey]; jk_alg := NoneAlg;
     jk_kid := Some "k1"; jk_epk := None; jk_other := [("x5t", "v""1")] |}.
Definition ex_one : message :=
  {| m_jwm := {| jh_typ := DidCommRaw; jh_enc := None; jh_kid := Some "kid-1"; jh_skid := None; jh_alg := None;
                 jh_jku := Some "https://keys"; jh_jwk := Some ex_one_jwk; jh_epk := None; jh_cty := Some "text" |};
     m_did := ex_did; m_recipients := None; m_body := ex_body; m_flat_jwe := false; m_flat_jws := false; m_attachments := [ex_attachment] |}.
Lemma ex_one_sendable : sendable toy ex_one.
Proof. unfold ex_one, ex_one_jwk, ex_did, ex_body, ex_attachment. send_msg. Qed.
Lemma ex_one_few : few_custom (m_jwm ex_one).
Proof. split; cbn; [lia|exact I]. Qed.
Lemma toy_signs : forall m a sk, exists text, sign (as_jws m a) (signer toy a) sk = Ok text.
Proof. intros m a sk. eexists. apply sign_ok. eexists. split; [destruct a; discriminate|]. split; [apply signer_ok; reflexivity|reflexivity]. Qed.
(** The toy environment with signatures that contain the whole signed text, so that they are exact. *)
Definition toy_exact_env : env := {|
  x_pub := x_pub toy; x_dh := x_dh toy; xc_enc := xc_enc toy; xc_dec := xc_dec toy; gcm_enc := gcm_enc toy; gcm_dec := gcm_dec toy;
  cbc_enc := cbc_enc toy; sig_sign := fun a k m => Some (k ++ m); sig_verify := fun a k m s => Some (String.eqb (k ++ m) s);
  resolve := resolve toy; fl := fl toy; ho := ho toy |}.
Lemma toy_exact_signs : forall m a sk, exists text, sign (as_jws m a) (signer toy_exact_env a) sk = Ok text.
Proof. intros m a sk. eexists. apply sign_ok. eexists. split; [destruct a; discriminate|]. split; [apply signer_ok; reflexivity|reflexivity]. Qed.
Lemma toy_exact_pair : forall a k, exact_pair toy_exact_env a k k.
Proof.
  intros a k msg s H msg'. cbn in *. injection H as <-. f_equal. destruct (String.eqb_spec msg' msg) as [->|N]; [apply String.eqb_refl|].
  destruct (String.eqb_spec (k ++ msg') (k ++ msg)) as [E|]; [|reflexivity]. apply sapp_inj_l in E. congruence.
Qed.

(** ** C05 *)

Theorem C05_sign_verify : forall E m a sk pk text k1 k2, env_ok E -> sendable E m -> few_custom (m_jwm m) -> key_pair E a sk pk ->
  sign (as_jws m a) (signer E a) sk = Ok text ->
  exists m', verify E (rt E k1) (rt E k2) text pk = Ok m' /\ same_message (with_jwm m jwm_default) m' /\ flags_reset m'.
Proof.
  intros E m a sk pk text k1 k2 HE HS HF HK HT. exists (re_message (rt E k2) (with_jwm m jwm_default)). split; [|split].
  - rewrite (verify_signed E (rt E k1) (rt E k2) (as_jws m a) a sk pk text); auto.
    + change (with_jwm (as_jws m a) jwm_default) with (with_jwm m jwm_default).
      rewrite (sendable_from_slice E k2 (with_jwm m jwm_default) (with_default_sendable E m HS)). reflexivity.
    + now apply env_drt.
    + apply as_jws_good. eapply sendable_header. exact HS.
    + right. apply (sd_to E m HS).
  - now apply re_message_same.
  - apply re_message_flags.
Qed.
(** The flattened form. *)
Theorem C05_flat_sign_verify : forall E m a sk pk text k1 k2, env_ok E -> sendable E m -> few_custom (m_jwm m) -> key_pair E a sk pk ->
  sign (as_flat_jws m a) (signer E a) sk = Ok text ->
  exists m', verify E (rt E k1) (rt E k2) text pk = Ok m' /\ same_message (with_jwm m jwm_default) m' /\ flags_reset m'.
Proof.
  intros E m a sk pk text k1 k2 HE HS HF HK HT.
  exact (C05_sign_verify E (with_flat_jws m true) a sk pk text k1 k2 HE (with_flat_jws_sendable E m true HS) HF HK HT).
Qed.
(** Through [receive] with the public key, whatever other keys are given. *)
Theorem C05_sign_receive : forall E m a sk pk text esk epk, env_ok E -> sendable E m -> few_custom (m_jwm m) -> key_pair E a sk pk ->
  sign (as_jws m a) (signer E a) sk = Ok text ->
  exists m', receive E text esk epk (Some pk) = Ok m' /\ same_message (with_jwm m jwm_default) m' /\ flags_reset m'.
Proof.
  intros E m a sk pk text esk epk HE HS HF HK HT.
  assert (HS' : sendable E (as_jws m a)) by (apply with_jwm_sendable; [exact HS|]; apply as_jws_good; eapply sendable_header; exact HS).
  eexists. split; [eapply (receive_signed E (as_jws m a) a sk pk text (Some pk)); eauto; reflexivity|]. split; [|apply re_message_flags].
  eapply same_message_trans; [|apply re_message_same; exact HE]. apply (re_message_same E 21 (with_jwm m jwm_default) HE).
Qed.
(** Signing fails only if the signature primitive fails. *)
Theorem C05_sign_total : forall E m a sk, (exists text, sign (as_jws m a) (signer E a) sk = Ok text) <->
  (exists s, sig_sign E a sk (header_text (sign_header (as_jws m a)) ++ "." ++ b64_encode (as_raw_json (with_jwm m jwm_default))) = Some s).
Proof.
  intros E m a sk. split.
  - intros [text H]. apply sign_ok in H. destruct H as [s [_ [H _]]]. apply signer_ok in H. exists s. exact H.
  - intros [s H]. exists (jws_json (sign_env (as_jws m a) s)). apply sign_ok. exists s. split; [discriminate|]. split; [|reflexivity].
    apply signer_ok. exact H.
Qed.
Example C05_example : exists text m', sign (as_jws ex_one Es256) (signer toy Es256) "alice" = Ok text /\
  receive toy text None None (Some "alice") = Ok m' /\ same_message (with_jwm ex_one jwm_default) m'.
Proof.
  destruct (toy_signs ex_one Es256 "alice") as [text H].
  destruct (C05_sign_receive toy ex_one Es256 "alice" "alice" text None None toy_env ex_one_sendable ex_one_few (toy_key_pair Es256 "alice") H) as [m' [H1 [H2 _]]].
  exists text, m'. auto.
Qed.

(** ** C06 *)

(** Whatever [verify] accepts is a signed envelope with an entry that is valid under the key, and the result is the payload. *)
Theorem C06_verify_sound : forall E R1 R2 text key m, verify E R1 R2 text key = Ok m -> authentic E R1 R2 text key m.
Proof. exact verify_authentic. Qed.
Theorem C06_verify_value_sound : forall E R1 R2 v key m, verify_value E R1 R2 v key = Ok m -> authentic E R1 R2 (print v) key m.
Proof. intros E R1 R2 v key m H. apply verify_authentic. exact H. Qed.
Example C06_example : exists text m, verify toy (rt toy 0) (rt toy 1) text "alice" = Ok m /\ dh_id (m_did m) = "urn:1".
Proof.
  destruct (toy_signs ex_one EdDsa "alice") as [text H].
  destruct (C05_sign_verify toy ex_one EdDsa "alice" "alice" text 0 1 toy_env ex_one_sendable ex_one_few (toy_key_pair EdDsa "alice") H) as [m' [H1 [H2 _]]].
  exists text, m'. split; [exact H1|]. destruct H2 as [_ [H2 _]]. now destruct H2 as [H2 _].
Qed.

(** ** C07 *)

(** Few custom members: the verdict does not depend on map orders, whatever the key. *)
Theorem C07_few_order_free : forall E R R' R2 m f sk text key, drt_ok R -> drt_ok R' -> rust_message m -> header_plain (m_jwm m) ->
  few_custom (m_jwm m) -> sign m f sk = Ok text -> verify E R R2 text key = verify E R' R2 text key.
Proof.
  intros E R R' R2 m f sk text key HR HR' HM HP HF HS. apply sign_ok in HS. destruct HS as [s [_ [_ ->]]].
  apply few_order_free; try assumption. split; [|exact HP]. destruct HM as [M1 M2 M3 _ _ _ _ _ _ _]. split; [|now split].
  unfold message_strings in M1. now apply Forall_app in M1.
Qed.
(** Several: some order of the receiving map makes a correctly signed envelope fail. *)
Theorem C07_order_rejects : forall E m a sk pk text R2, sendable E m -> many_custom (m_jwm m) -> exact_pair E a sk pk ->
  sign (as_jws m a) (signer E a) sk = Ok text ->
  exists order, (forall V (l : list (string * V)), Permutation (order V l) l) /\
    verify E {| fnorm := fl E; hord := order |} R2 text pk = Err EJwsParse.
Proof.
  intros E m a sk pk text R2 HS HM HX HT. exists (fun _ l => rev l). split; [intros V l; apply Permutation_sym, Permutation_rev|].
  apply (rev_order_rejects E (as_jws m a) a sk pk text R2); auto. apply as_jws_good. eapply sendable_header. exact HS.
Qed.
Example C07_example : sendable toy_exact_env ex_plain /\ many_custom (m_jwm ex_plain) /\
  exists text, sign (as_jws ex_plain Es256k) (signer toy_exact_env Es256k) "alice" = Ok text.
Proof.
  split; [destruct ex_plain_sendable as [S1 S2 S3 S4 S5 S6 S7]; constructor; assumption|]. split; [left; exists ex_jwk; split; [reflexivity|cbn; lia]|].
  exact (toy_exact_signs ex_plain Es256k "alice").
Qed.

(** ** C08 *)

(** A text classified as signed: the result is the payload of an envelope with an entry valid under the given key.
    The envelope is the text itself or, for a message that declares itself signed, its body. *)
Theorem C08_receive_signed : forall E text sk pk key m, get_message_type (rt E 0) text = Ok DidCommJws ->
  receive E text sk pk (Some key) = Ok m -> exists v k1 k2 env, authentic E (rt E k1) (rt E k2) env key v /\
  (env = text \/ exists outer, message_from_str (rt E 5) text = Some outer /\ env = get_body outer) /\
  message_from_str (rt E 9) (message_json v) = Some m.
Proof. exact receive_authentic. Qed.
(** The same for a signed text inside an encrypted one. *)
Theorem C08_receive_decrypted : forall E text sk pk key m inner, get_message_type (rt E 0) text = Ok DidCommJwe ->
  receive_jwe E text sk pk = Ok inner -> get_message_type (rt E 4) inner = Ok DidCommJws ->
  receive E text (Some sk) pk (Some key) = Ok m -> exists v k1 k2 env, authentic E (rt E k1) (rt E k2) env key v /\
  (env = inner \/ exists outer, message_from_str (rt E 5) inner = Some outer /\ env = get_body outer) /\
  message_from_str (rt E 9) (message_json v) = Some m.
Proof.
  intros E text sk pk key m inner H1 H2 H3 H. unfold receive in H. rewrite H1 in H. cbn [rbind is_jwe_type oerr] in H. rewrite H2 in H. cbn [rbind] in H.
  rewrite H3 in H. cbn [rbind is_jws_type] in H. rbinv H. apply oerr_ok in H. apply receive_jws_authentic in E0.
  destruct E0 as [x [k1 [k2 [en [-> [HA HE]]]]]]. exists x, k1, k2, en. auto.
Qed.
(** Re-reading the verified payload changes nothing: the message returned is the one that was signed. *)
Theorem C08_same_message : forall E R1 k2 env key v m, env_ok E -> authentic E R1 (rt E k2) env key v ->
  dh_to (m_did v) <> [] -> stable (rt E 0) (m_body v) -> message_from_str (rt E 9) (message_json v) = Some m -> same_message v m.
Proof.
  intros E R1 k2 en key v m HE [j [p [e [raw [_ [_ [_ [_ [_ HM]]]]]]]]] HT HB H.
  assert (HD : decoded v) by (eapply message_from_slice_decoded; [apply env_drt; exact HE|exact HM]).
  assert (HX : depth (m_body v) <= 126) by (eapply printed_depth; eassumption).
  rewrite (sendable_from_str E 9 v (decoded_sendable E v HD HT HX HB)) in H. apply some_inj in H. subst m. now apply re_message_same.
Qed.
Example C08_example : exists text m, get_message_type (rt toy 0) text = Ok DidCommJws /\ receive toy text None None (Some "alice") = Ok m.
Proof.
  destruct (toy_signs ex_one EdDsa "alice") as [text H]. exists text.
  destruct (C05_sign_receive toy ex_one EdDsa "alice" "alice" text None None toy_env ex_one_sendable ex_one_few (toy_key_pair EdDsa "alice") H) as [m' [H1 _]].
  exists m'. split; [eapply classify_signed; exact H|exact H1].
Qed.

(** ** C09 *)

(** Anybody with a key pair makes an envelope with any content, any [from] included, that is accepted when no key is given. *)
Theorem C09_attacker_accepted : forall E m a sk pk text esk epk, env_ok E -> sendable E m -> few_custom (m_jwm m) -> key_pair E a sk pk ->
  sign (as_jws (set_kid m (hex_encode pk)) a) (signer E a) sk = Ok text ->
  exists m', receive E text esk epk None = Ok m' /\ same_message (with_jwm m jwm_default) m' /\ dh_from (m_did m') = dh_from (m_did m).
Proof.
  intros E m a sk pk text esk epk HE HS HF HK HT.
  assert (HKI : set_kid m (hex_encode pk) = with_jwm m (jh_with_kid (m_jwm m) (Some (hex_encode pk)))) by (unfold set_kid; destruct (jh_kid (m_jwm m)); reflexivity).
  rewrite HKI in HT.
  assert (HX : utf8_valid (hex_encode pk) = true).
  { apply utf8_ascii. clear. induction pk as [|c s IH]; [reflexivity|]. cbn [hex_encode sall]. rewrite IH, andb_true_r.
    apply (ascii_sweep (fun c => (is_ascii (hexdig (code c / 16)) && is_ascii (hexdig (code c mod 16)))%bool)). vm_compute. reflexivity. }
  assert (HG : good_header (m_jwm (with_jwm m (jh_with_kid (m_jwm m) (Some (hex_encode pk)))))) by (apply (good_kid (m_jwm m) (Some (hex_encode pk))); [exact HX|eapply sendable_header; exact HS]).
  assert (HS' : sendable E (as_jws (with_jwm m (jh_with_kid (m_jwm m) (Some (hex_encode pk)))) a)).
  { apply (with_jwm_sendable E m). exact HS. apply (as_jws_good (with_jwm m (jh_with_kid (m_jwm m) (Some (hex_encode pk)))) a HG). }
  assert (HR : receive E text esk epk None = Ok (re_message (rt E 9) (re_message (rt E 21) (with_jwm (as_jws (with_jwm m (jh_with_kid (m_jwm m) (Some (hex_encode pk)))) a) jwm_default)))).
  { apply (receive_signed E (as_jws (with_jwm m (jh_with_kid (m_jwm m) (Some (hex_encode pk)))) a) a sk pk text None esk epk HE HS' HF eq_refl HK HT).
    change (signing_key None (Some (hex_encode pk)) = Ok pk). unfold signing_key. rewrite hex_decode_encode. reflexivity. }
  eexists. split; [exact HR|].
  assert (HM : same_message (with_jwm m jwm_default) (re_message (rt E 9) (re_message (rt E 21) (with_jwm m jwm_default)))).
  { eapply same_message_trans; [|apply re_message_same; exact HE]. now apply re_message_same. }
  split; [exact HM|]. symmetry. apply HM.
Qed.
(** The key that counts is named by the entry itself. *)
Theorem C09_kid_decides : forall E text esk epk m, get_message_type (rt E 0) text = Ok DidCommJws -> receive E text esk epk None = Ok m ->
  exists v k1 k2 env key kid, hex_decode kid = Some key /\ authentic E (rt E k1) (rt E k2) env key v /\
    message_from_str (rt E 9) (message_json v) = Some m.
Proof.
  intros E text esk epk m HT H. unfold receive in H. rewrite HT in H. cbn [rbind is_jwe_type] in H. rbinv H.
  assert (v = DidCommJws) by (eapply classify_stable; eassumption). subst v. cbn [is_jws_type] in E1. apply oerr_ok in H.
  assert (HKK : forall kid key, signing_key None kid = Ok key -> exists k, hex_decode k = Some key).
  { intros [k|] key HK; [|discriminate]. exists k. unfold signing_key in HK. now apply oerr_ok in HK. }
  unfold receive_jws in E1. destruct (message_from_str (rt E 5) text) as [o|] eqn:EM.
  - destruct (jh_alg (m_jwm o)); [|discriminate]. rbinv E1. apply ok_inj in E1. subst v0. destruct (HKK _ _ E2) as [kid HK].
    exists v1, 6, 7, (get_body o), v, kid. split; [exact HK|]. split; [now apply verify_authentic|exact H].
  - destruct (jws_from_str (rt E 8) text) as [w|]; [|discriminate]. rbinv E1. apply ok_inj in E1. subst v0. apply oerr_ok in E4. subst v1.
    assert (HV : forall l i x, verify_entries E i text None l = Ok (Some x) -> exists k key kid, hex_decode kid = Some key /\
      authentic E (rt E (20 + 2 * k)) (rt E (21 + 2 * k)) text key x).
    { induction l as [|s l IH]; intros i x HX; [discriminate|]. cbn [verify_entries] in HX. destruct (sig_get s jh_alg); [|eauto].
      destruct (signing_key None (sig_get s jh_kid)) as [key| |] eqn:EK; try discriminate. cbn [rbind] in HX.
      destruct (verify _ _ _ _ _) as [y| |] eqn:EV; [|eauto|discriminate]. apply ok_inj in HX. injection HX as ->.
      destruct (HKK _ _ EK) as [kid HK]. exists i, key, kid. split; [exact HK|]. now apply verify_authentic. }
    destruct (HV _ _ _ E3) as [k [key [kid [HK HA]]]]. exists v2, (20 + 2 * k), (21 + 2 * k), text, key, kid. auto.
Qed.
Example C09_example : exists text m', sign (as_jws (set_kid ex_one (hex_encode "mallory")) EdDsa) (signer toy EdDsa) "mallory" = Ok text /\
  receive toy text None None None = Ok m' /\ dh_from (m_did m') = Some "did:toy:alice".
Proof.
  destruct (toy_signs (set_kid ex_one (hex_encode "mallory")) EdDsa "mallory") as [text H]. exists text.
  destruct (C09_attacker_accepted toy ex_one EdDsa "mallory" "mallory" text None None toy_env ex_one_sendable ex_one_few (toy_key_pair EdDsa "mallory") H) as [m' [H1 [_ H2]]].
  exists m'. auto.
Qed.

(** ** C48 *)

(** Exactly one outcome per entry. *)
Theorem C48_outcome : forall E payload key s, exists! o, entry_outcome E payload key s o.
Proof.
  intros E payload key s. destruct (entry_outcome_total E payload key s) as [o Ho]. exists o. split; [exact Ho|]. intros o' Ho'.
  apply entry_outcome_check in Ho, Ho'. destruct o as [b|], o' as [b'|]; try reflexivity.
  - rewrite Ho in Ho'. apply ok_inj in Ho'. now subst.
  - destruct Ho' as [x Hx]. congruence.
  - destruct Ho as [x Hx]. congruence.
Qed.
Theorem C48_verify_iff : forall E R1 R2 text key m, verify E R1 R2 text key = Ok m <->
  exists w l pre s post raw, jws_from_slice R1 text = Some w /\ has_entries w l /\ l = (pre ++ s :: post)%list /\
    Forall (fun x => entry_outcome E (js_payload w) key x (Some false)) pre /\ entry_outcome E (js_payload w) key s (Some true) /\
    b64_decode (js_payload w) = Some raw /\ message_from_slice R2 raw = Some m.
Proof.
  assert (HO : forall E payload key s b, check_entry E payload key s = Ok b <-> entry_outcome E payload key s (Some b)).
  { intros E payload key s b. split; [|apply entry_outcome_check]. intros H. destruct (entry_outcome_total E payload key s) as [[b'|] Ho].
    - pose proof (entry_outcome_check _ _ _ _ _ Ho) as HC. cbn in HC. rewrite H in HC. apply ok_inj in HC. now subst.
    - pose proof (entry_outcome_check _ _ _ _ _ Ho) as [x HC]. congruence. }
  intros E R1 R2 text key m. rewrite verify_ok. split; intros [w [l [pre [s [post [raw [H1 [H2 [H3 [H4 [H5 H6]]]]]]]]]]]; exists w, l, pre, s, post, raw;
    (split; [exact H1|]); (split; [exact H2|]); (split; [exact H3|]); (split; [|split; [now apply HO|exact H6]]);
    (eapply Forall_impl; [|exact H4]); intros x; now apply HO.
Qed.
(** One unusable entry in front of any others, valid or not, makes the whole envelope fail. *)
Theorem C48_unusable_entry : forall E R1 R2 text key w l pre s post, jws_from_slice R1 text = Some w -> has_entries w l ->
  l = (pre ++ s :: post)%list -> Forall (fun x => entry_outcome E (js_payload w) key x (Some false)) pre ->
  entry_outcome E (js_payload w) key s None -> exists x, verify E R1 R2 text key = Err x.
Proof.
  intros E R1 R2 text key w l pre s post H1 H2 -> H4 H5. unfold verify. rewrite H1. cbn [oerr rbind]. apply has_entries_iff in H2. rewrite H2. cbn [rbind].
  apply entry_outcome_check in H5. destruct H5 as [x Hx]. exists x.
  assert (HC : check_entries E (js_payload w) key (pre ++ s :: post) = Err x).
  { clear H2. induction H4 as [|y pre HY H4 IH]; cbn [app check_entries].
    - now rewrite Hx.
    - apply entry_outcome_check in HY. rewrite HY. exact IH. }
  rewrite HC. reflexivity.
Qed.
(** Two entries, the first without algorithm, the second valid. *)
Definition ex_two (s : string) : jws :=
  {| js_payload := sign_payload (as_jws ex_one EdDsa); js_signature := None;
     js_signatures := Some [ {| sg_protected := Some jwm_default; sg_header := None; sg_signature := "" |}; sign_entry (as_jws ex_one EdDsa) s ] |}.
Example C48_example : exists x, verify toy (rt toy 0) (rt toy 1) (jws_json (ex_two "sig")) "alice" = Err x.
Proof.
  assert (HG : good_jws (ex_two "sig")).
  { split; [apply b64_utf8|]. split; [exact I|]. constructor; [split; [apply default_header|exact I]|]. constructor; [|constructor].
    split; [|exact I]. apply good_typ, as_jws_good. eapply sendable_header. exact ex_one_sendable. }
  eapply C48_unusable_entry with (pre := []).
  - apply (jws_round (rt toy 0) _ HG).
  - left. reflexivity.
  - reflexivity.
  - constructor.
  - eapply eo_no_alg; cbn; [reflexivity|reflexivity|discriminate].
Qed.

(** ** C49 *)

Theorem C49_verify_fails : forall E R1 R2 m f sk text key, m_flat_jws m = false -> dh_to (m_did m) = [] -> sign m f sk = Ok text ->
  exists x, verify E R1 R2 text key = Err x.
Proof.
  intros E R1 R2 m f sk text key HF HT HS. destruct (nobody_rejected E R1 R2 m f sk text key HF HT HS) as [H1 H2].
  destruct (verify E R1 R2 text key) as [y|x|]; [exfalso; now apply (H2 y)|now exists x|congruence].
Qed.
Theorem C49_receive_fails : forall E m f sk text esk epk key m', m_flat_jws m = false -> dh_to (m_did m) = [] -> sign m f sk = Ok text ->
  receive E text esk epk key <> Ok m'.
Proof. exact nobody_receive. Qed.
Example C49_example : dh_to (m_did (as_jws (set_to (message_new "x") []) EdDsa)) = [] /\
  exists text, sign (as_jws (set_to (message_new "x") []) EdDsa) (signer toy EdDsa) "alice" = Ok text.
Proof. split; [reflexivity|]. exact (toy_signs (set_to (message_new "x") []) EdDsa "alice"). Qed.

(** ** C11, signed envelopes *)

(** The unprotected header overrides the signed one: an envelope whose signed header names algorithm [a] is checked with
    algorithm [b] if the unprotected header says so. *)
Definition override_env (m : message) (a b : signature_algorithm) (s : string) : jws :=
  {| js_payload := b64_encode (as_raw_json (with_jwm m jwm_default));
     js_signature := Some {| sg_protected := Some (jh_with_alg jwm_default (Some (sig_alg_name a)));
                             sg_header := Some (jh_with_alg jwm_default (Some (sig_alg_name b))); sg_signature := s |};
     js_signatures := None |}.
Theorem C11_jws_unprotected_wins : forall E m a b s key k1 k2, env_ok E -> sendable E m ->
  (exists m', verify E (rt E k1) (rt E k2) (jws_json (override_env m a b s)) key = Ok m') <->
  sig_verify E b key (header_text (jh_with_alg jwm_default (Some (sig_alg_name a))) ++ "." ++ b64_encode (as_raw_json (with_jwm m jwm_default))) s = Some true.
Proof.
  intros E m a b s key k1 k2 HE HS.
  assert (HH : forall x, good_header (jh_with_alg jwm_default (Some (sig_alg_name x)))) by (intros x; apply good_alg; [destruct x; reflexivity|apply default_header]).
  assert (HG : good_jws (override_env m a b s)) by (split; [apply b64_utf8|]; split; [split; apply HH|exact I]).
  unfold verify. destruct (jws_round (rt E k1) _ HG) as [-> _]. cbn [oerr rbind re_jws override_env js_signatures option_map jws_entries js_signature js_payload].
  cbn [check_entries]. unfold check_entry. cbn [re_signature sg_protected sg_header sg_signature option_map sig_get fallback].
  replace (jh_alg (re_jwm (rt E k1) (jh_with_alg jwm_default (Some (sig_alg_name b))))) with (Some (sig_alg_name b)) by reflexivity.
  cbn [oerr rbind]. rewrite sig_alg_name_of. cbn [rbind].
  replace (re_jwm (rt E k1) (jh_with_alg jwm_default (Some (sig_alg_name a)))) with (jh_with_alg jwm_default (Some (sig_alg_name a))) by reflexivity.
  change (signing_input (jh_with_alg jwm_default (Some (sig_alg_name a))) (b64_encode (as_raw_json (with_jwm m jwm_default))))
    with (header_text (jh_with_alg jwm_default (Some (sig_alg_name a))) ++ "." ++ b64_encode (as_raw_json (with_jwm m jwm_default))).
  unfold validator. destruct (sig_verify E b key _ s) as [[]|]; cbn [oerr rbind].
  - rewrite b64_decode_encode. cbn [oerr rbind]. unfold as_raw_json. rewrite (sendable_from_slice E k2 (with_jwm m jwm_default) (with_default_sendable E m HS)).
    cbn [oerr]. split; [reflexivity|]. intros _. eexists. reflexivity.
  - split; [intros [m' H]; discriminate|discriminate].
  - split; [intros [m' H]; discriminate|discriminate].
Qed.
Example C11_jws_example : exists s m', verify toy (rt toy 0) (rt toy 1) (jws_json (override_env ex_small EdDsa Es256 s)) "alice" = Ok m'.
Proof.
  eexists. apply (C11_jws_unprotected_wins toy ex_small EdDsa Es256 _ "alice" 0 1 toy_env ex_small_sendable).
  eapply (toy_key_pair Es256 "alice"). reflexivity.
Qed.

(** ** C41, signed envelopes *)

(** Every signature entry declares the signed type, the payload declares the plain type. *)
Theorem C41_signed_types : forall m f sk text, rust_message m -> sign m f sk = Ok text -> exists es p pes b,
  parse text = Some (JObj es) /\ text_field jws_names (JObj es) "payload" p /\ b64_text (print (JObj pes)) p /\
  In ("typ", JStr b "application/didcomm-plain+json") pes /\ parse (print (JObj pes)) = Some (JObj pes) /\
  forall e, sig_entry (JObj es) e -> exists hj, protected_tree e hj /\ text_field jose_names hj "typ" "application/didcomm-signed+json".
Proof. exact sign_types. Qed.
Example C41_signed_example : rust_message ex_plain /\ exists text, sign (as_flat_jws ex_plain EdDsa) (signer toy EdDsa) "k" = Ok text.
Proof. split; [apply (sd_rust _ _ ex_plain_sendable)|]. exact (toy_signs (with_flat_jws ex_plain true) EdDsa "k"). Qed.

(** ** C50 *)

(** A signature over the header text as received (RFC 7515 section 5.2) is rejected unless that text is what the crate itself
    would have written for this header. *)
Theorem C50_foreign_header_rejected : forall E R R2 a sk pk raw hj h payload s, parse_slice raw = Some hj -> de_jwm R false hj = Some h ->
  jh_alg h = Some (sig_alg_name a) -> rust_string payload -> raw <> print (ser_jwm h) -> exact_pair E a sk pk ->
  sig_sign E a sk (b64_encode raw ++ "." ++ payload) = Some s ->
  verify E R R2 (flat_envelope raw payload s) pk = Err EJwsParse.
Proof.
  intros E R R2 a sk pk raw hj h payload s H1 H2 HA HU HN HX HS. unfold verify. rewrite (flat_decode R raw payload s hj h HU H1 H2).
  cbn [oerr rbind jws_entries js_signatures js_signature js_payload check_entries]. unfold check_entry. cbn [sig_get fallback sg_header sg_protected sg_signature].
  rewrite HA. cbn [oerr rbind]. rewrite sig_alg_name_of. cbn [rbind]. unfold validator. rewrite (HX _ _ HS).
  destruct (String.eqb_spec (signing_input h payload) (b64_encode raw ++ "." ++ payload)) as [E0|]; [|reflexivity].
  exfalso. unfold signing_input in E0. apply sapp_inj_r in E0. unfold header_b64 in E0. apply b64_encode_inj in E0. congruence.
Qed.
(** Conversely the received header text itself is not protected: any other text of the same header does as well. *)
Theorem C50_header_text_free : forall E R R2 raw raw' hj hj' h payload s key, rust_string payload ->
  parse_slice raw = Some hj -> de_jwm R false hj = Some h -> parse_slice raw' = Some hj' -> de_jwm R false hj' = Some h ->
  verify E R R2 (flat_envelope raw payload s) key = verify E R R2 (flat_envelope raw' payload s) key.
Proof.
  intros E R R2 raw raw' hj hj' h payload s key HU H1 H2 H1' H2'. unfold verify.
  rewrite (flat_decode R raw payload s hj h HU H1 H2), (flat_decode R raw' payload s hj' h HU H1' H2'). reflexivity.
Qed.
(** A header in another member order. *)
Definition ex_raw : string := "{""alg"":""EdDSA"",""typ"":""application/didcomm-signed+json""}".
Definition ex_raw_header : jwm_header := jh_with_alg (jh_with_typ jwm_default DidCommJws) (Some "EdDSA").
Example C50_example : exists hj, parse_slice ex_raw = Some hj /\ de_jwm (rt toy 0) false hj = Some ex_raw_header /\
  ex_raw <> print (ser_jwm ex_raw_header) /\ exists hj', parse_slice (print (ser_jwm ex_raw_header)) = Some hj' /\ de_jwm (rt toy 0) false hj' = Some ex_raw_header.
Proof.
  eexists. split; [vm_compute; reflexivity|]. split; [vm_compute; reflexivity|]. split; [vm_compute; discriminate|].
  eexists. split; vm_compute; reflexivity.
Qed.

(** ** C30, C33: rotation data and attachments of signed messages *)

Theorem C30_signed_round_trip : forall E m a sk pk text esk epk, env_ok E -> sendable E m -> few_custom (m_jwm m) -> key_pair E a sk pk ->
  sign (as_jws m a) (signer E a) sk = Ok text ->
  exists m', receive E text esk epk (Some pk) = Ok m' /\ is_rotation m' = is_rotation m /\ get_prior m' = get_prior m.
Proof.
  intros E m a sk pk text esk epk HE HS HF HK HT. destruct (C05_sign_receive E m a sk pk text esk epk HE HS HF HK HT) as [m' [H1 [H2 _]]].
  exists m'. split; [exact H1|]. assert (HP : dh_from_prior (m_did m) = dh_from_prior (m_did m')) by apply H2.
  unfold get_prior, is_rotation. rewrite HP. split; reflexivity.
Qed.
Theorem C33_signed_round_trip : forall E m a sk pk text esk epk, env_ok E -> sendable E m -> few_custom (m_jwm m) -> key_pair E a sk pk ->
  sign (as_jws m a) (signer E a) sk = Ok text ->
  exists m', receive E text esk epk (Some pk) = Ok m' /\ attachment_iter m' = attachment_iter m.
Proof.
  intros E m a sk pk text esk epk HE HS HF HK HT. destruct (C05_sign_receive E m a sk pk text esk epk HE HS HF HK HT) as [m' [H1 [H2 _]]].
  exists m'. split; [exact H1|]. symmetry. apply H2.
Qed.

Print Assumptions C05_sign_verify.
Print Assumptions C05_flat_sign_verify.
Print Assumptions C05_sign_receive.
Print Assumptions C05_sign_total.
Print Assumptions C06_verify_sound.
Print Assumptions C06_verify_value_sound.
Print Assumptions C07_few_order_free.
Print Assumptions C07_order_rejects.
Print Assumptions C08_receive_signed.
Print Assumptions C08_receive_decrypted.
Print Assumptions C08_same_message.
Print Assumptions C09_attacker_accepted.
Print Assumptions C09_kid_decides.
Print Assumptions C48_outcome.
Print Assumptions C48_verify_iff.
Print Assumptions C48_unusable_entry.
Print Assumptions C49_verify_fails.
Print Assumptions C49_receive_fails.
Print Assumptions C11_jws_unprotected_wins.
Print Assumptions C41_signed_types.
Print Assumptions C50_foreign_header_rejected.
Print Assumptions C50_header_text_free.
Print Assumptions C30_signed_round_trip.
Print Assumptions C33_signed_round_trip.
