(** Iteration orders of hash maps (C66), and what an encrypted envelope shows (C67). *)

From Coq Require Import Ascii String Arith NArith List Bool Permutation Lia.
From Verif Require Import Bytes BytesFacts Base64 Base64Facts Utf8 Json JsonFacts SpecJson GrammarFacts Value ValueFacts Types Serde SerdeFacts Message ChaCha Attach Envelope Spec SpecFacts
  SpecText SpecSign SpecSeal SpecKey SpecDecode SpecEnv CryptoLaws Examples DecodeFacts CodecFacts HeaderFacts SignFacts PropSign SealFacts SealFacts2 SealFacts3 PropSeal
  KeyFacts SetterFacts SameFacts SameFacts2 SameFacts3.
Import ListNotations.
Local Open Scope string_scope.

(** ** C66 *)

(** Equal messages are written as documents that differ in the order of members at most, and are received alike. *)
Theorem C66_written : forall E m m', sendable E m -> sendable E m' -> same_message m m' ->
  exists j j', document (as_raw_json m) j /\ document (as_raw_json m') j' /\ reordered j j'.
Proof. exact same_written. Qed.
Theorem C66_received : forall E m m' sk pk spk, env_ok E -> sendable E m -> sendable E m' -> same_message m m' ->
  same_result same_message (receive E (as_raw_json m) sk pk spk) (receive E (as_raw_json m') sk pk spk).
Proof. exact same_received. Qed.
(** The message of the other examples with all maps the other way round. *)
Definition ex_turned : message :=
  {| m_jwm := {| jh_typ := DidCommRaw; jh_enc := None; jh_kid := Some "kid-1"; jh_skid := None; jh_alg := None; jh_jku := Some "https://keys";
       jh_jwk := Some {| jk_kty := Some "OKP"; jk_use := None; jk_crv := Some "X25519"; jk_key_ops := [KDeriveKey]; jk_alg := NoneAlg;
         jk_kid := Some "k1"; jk_epk := Some {| ep_kty := "OKP"; ep_crv := "X25519"; ep_x := "AAAA"; ep_y := None |};
         jk_other := [("x5u", "v2"); ("x5t", "v""1")] |}; jh_epk := None; jh_cty := Some "text" |};
     m_did := {| dh_id := "urn:1"; dh_thid := Some "t1"; dh_pthid := None; dh_type := "https://example.org/ping/1.0/ping";
       dh_to := ["did:toy:bob"; "did:toy:carol"]; dh_from := Some "did:toy:alice"; dh_created := Some 1700000000%N; dh_expires := Some 1700000001%N;
       dh_from_prior := Some {| pc_sub := None; pc_iss := "did:toy:old" |};
       dh_thread := Some {| th_thid := "t1"; th_pthid := ""; th_sender_order := Some 3%N;
                            th_received_orders := Some [("did:toy:carol", 0%N); ("did:toy:bob", 1%N)]; th_goal_code := None |};
       dh_other := [("x-empty", ""); ("lang", "de ""\")] |};
     m_recipients := None; m_body := ex_body; m_flat_jwe := false; m_flat_jws := false; m_attachments := [ex_attachment; ex_attachment] |}.
Example C66_equal_example : sendable toy ex_plain /\ sendable toy ex_turned /\ same_message ex_plain ex_turned /\ as_raw_json ex_plain <> as_raw_json ex_turned.
Proof.
  assert (HS : same_message ex_plain ex_turned).
  { unfold same_message, ex_plain, ex_turned, ex_header, ex_did, ex_jwk. cbn. repeat split; try apply perm_swap; try reflexivity. }
  split; [exact ex_plain_sendable|]. split; [exact (same_sendable toy _ _ HS ex_plain_sendable)|]. split; [exact HS|]. vm_compute. discriminate.
Qed.

(** Nothing that is sent depends on an iteration order. *)
Theorem C66_sending : forall E o,
  (forall rnd m sk keys, seal (reorder E o) rnd m sk keys = seal E rnd m sk keys) /\
  (forall rnd m sk keys sa ssk, seal_signed (reorder E o) rnd m sk keys sa ssk = seal_signed E rnd m sk keys sa ssk) /\
  (forall rnd1 rnd2 uuid m sk keys mediator key,
     routed_by (reorder E o) rnd1 rnd2 uuid m sk keys mediator key = routed_by E rnd1 rnd2 uuid m sk keys mediator key).
Proof. intros E o. split; [apply seal_reorder|]. split; [apply seal_signed_reorder|apply routed_reorder]. Qed.

(** Texts that are not envelopes are received alike under all iteration orders. *)
Theorem C66_plain : forall E o text sk pk spk, env_ok E -> env_ok (reorder E o) ->
  get_message_type (rt E 0) text <> Ok DidCommJwe -> get_message_type (rt E 0) text <> Ok DidCommJws ->
  same_result same_message (receive E text sk pk spk) (receive (reorder E o) text sk pk spk).
Proof. exact receive_plain_order. Qed.
(** Envelopes too, if their protected headers embed no keys with two or more custom members. *)
Theorem C66_envelopes : forall E o text sk pk spk, env_ok E -> env_ok (reorder E o) -> calm E text -> calm_inside E text sk pk ->
  same_result same_message (receive E text sk pk spk) (receive (reorder E o) text sk pk spk).
Proof. exact receive_order. Qed.
Theorem C66_signed : forall E m f sk text, env_ok E -> sendable E m -> few_custom (m_jwm m) -> sign m f sk = Ok text -> calm E text.
Proof. intros E m f sk text HE HS. apply sign_calm; [exact HE|now apply (sendable_header E)]. Qed.
Theorem C66_sealed : forall E o rnd m sk keys text i dest rsk spk signing from, env_ok E -> env_ok (reorder E o) -> crypto_ok E -> rand_ok rnd ->
  sendable E m -> few_custom (m_jwm m) -> dh_from (m_did m) = Some from -> seal E rnd m sk keys = Ok text ->
  nth_error (dh_to (m_did m)) i = Some dest -> String.length rsk = 32 -> known_key E dest (given_key keys i) (x_pub E rsk) ->
  known_key E from spk (x_pub E sk) -> others_closed E rnd m sk keys rsk i ->
  avoids ["ciphertext"] (dh_other (m_did m)) -> avoids ["payload"] (dh_other (m_did m)) -> calm_envelope E (get_body m) ->
  same_result same_message (receive E text (Some rsk) spk signing) (receive (reorder E o) text (Some rsk) spk signing).
Proof. exact sealed_order. Qed.
(** Without the condition the outcome depends on the order: the same signed text is accepted under one and refused under another. *)
Definition turn (k : nat) (V : Type) (l : list (string * V)) : list (string * V) := rev l.
Lemma turn_env : forall E, env_ok E -> env_ok (reorder E turn).
Proof. intros E [H1 H2]. split; [|exact H2]. intros k V l. apply Permutation_sym, Permutation_rev. Qed.
Definition two_members : jwk :=
  {| jk_kty := None; jk_use := None; jk_crv := None; jk_key_ops := []; jk_alg := NoneAlg; jk_kid := None; jk_epk := None; jk_other := [("a", "1"); ("b", "2")] |}.
Definition ex_two : message :=
  {| m_jwm := {| jh_typ := DidCommRaw; jh_enc := None; jh_kid := None; jh_skid := None; jh_alg := Some "EdDSA"; jh_jku := None; jh_jwk := Some two_members; jh_epk := None; jh_cty := None |};
     m_did := {| dh_id := "1"; dh_thid := None; dh_pthid := None; dh_type := ""; dh_to := ["x"]; dh_from := None; dh_created := None; dh_expires := None; dh_from_prior := None;
                 dh_thread := None; dh_other := [] |};
     m_recipients := None; m_body := JObj []; m_attachments := []; m_flat_jwe := false; m_flat_jws := true |}.
Definition two_text : string := Eval vm_compute in (match sign ex_two (signer toy_exact_env EdDsa) "k" with Ok t => t | _ => "" end).
Lemma toy_exact_ok : env_ok toy_exact_env.
Proof. destruct toy_env as [H1 H2]. split; [exact H1|exact H2]. Qed.
Theorem C66_orders_refuted : exists E o m text key m', env_ok E /\ env_ok (reorder E o) /\ sign m (signer E EdDsa) key = Ok text /\
  receive E text None None (Some key) = Ok m' /\ receive (reorder E o) text None None (Some key) = Err EJwsParse.
Proof.
  exists toy_exact_env, turn, ex_two, two_text, "k". destruct (receive toy_exact_env two_text None None (Some "k")) as [m'| |] eqn:ER.
  - exists m'. split; [exact toy_exact_ok|]. split; [apply turn_env, toy_exact_ok|]. split; [vm_compute; reflexivity|]. split; [reflexivity|]. vm_compute. reflexivity.
  - exfalso. revert ER. vm_compute. discriminate.
  - exfalso. revert ER. vm_compute. discriminate.
Qed.
(** One custom member is harmless: a signed message, and an encrypted one received by its second addressee. *)
Example C66_signed_example : exists text, sign (as_jws ex_one Es256k) (signer toy Es256k) "alice" = Ok text /\ calm toy text /\ calm_inside toy text None None /\ env_ok (reorder toy turn).
Proof.
  destruct (toy_signs ex_one Es256k "alice") as [text HT]. exists text. split; [exact HT|]. split; [|split; [intros k t H; discriminate|apply turn_env, toy_env]].
  eapply (C66_signed toy (as_jws ex_one Es256k)); [exact toy_env| |exact ex_one_few|exact HT].
  apply with_jwm_sendable; [exact ex_one_sendable|]. apply as_jws_good. eapply sendable_header. exact ex_one_sendable.
Qed.
Example C66_sealed_example : forall a, In a [XC20P; A256GCM] -> exists text, seal toy ex_rand (ex_jwe a) alice_key (Some ex_keys) = Ok text /\
  same_result same_message (receive toy text (Some carol_key) (Some alice_key) None) (receive (reorder toy turn) text (Some carol_key) (Some alice_key) None).
Proof.
  intros a HA. destruct (ex_seals a HA) as [text HT]. exists text. split; [exact HT|].
  apply (C66_sealed toy turn ex_rand (ex_jwe a) alice_key (Some ex_keys) text 1 "did:toy:carol" carol_key (Some alice_key) None "did:toy:alice").
  - exact toy_env.
  - apply turn_env, toy_env.
  - exact toy_crypto.
  - exact ex_rand_ok.
  - apply ex_jwe_sendable.
  - apply ex_jwe_few.
  - reflexivity.
  - exact HT.
  - reflexivity.
  - apply srepeat_length.
  - now left.
  - now left.
  - apply closed_bound. exact toy_crypto_bound.
  - avoid_tac.
  - avoid_tac.
  - change (get_body (ex_jwe a)) with (print ex_body). apply calm_object; [exact (rm_body _ (sd_rust _ _ ex_one_sendable))| |]; cbn; intros H; in_tac H.
Qed.

(** ** C67 *)

(** With the same keys and random values, two messages with the same header, sender and addressees give envelopes that differ in
    the ciphertext and its tag at most. *)
Theorem C67_shown : forall E rnd m m' sk keys text text', alike m m' -> seal E rnd m sk keys = Ok text -> seal E rnd m' sk keys = Ok text' ->
  exists es es', document text (JObj es) /\ document text' (JObj es') /\ differ_only ["ciphertext"; "tag"] es es'.
Proof. exact seal_shown. Qed.
(** The envelope is consistent with every such message: some answer of the cipher to that message alone gives the same text. *)
Theorem C67_explained : forall E rnd m m' sk keys text, alike m m' -> seal E rnd m sk keys = Ok text ->
  exists E' rs, List.length rs = List.length (dh_to (m_did m)) /\ same_but_for E E' (as_raw_json (with_recipients m' (Some rs))) /\ seal E' rnd m' sk keys = Ok text.
Proof. exact seal_explained. Qed.
(** Shown without any key: algorithm, sender and addressees, and the other members of the header. *)
Theorem C67_visible : forall E rnd m sk keys text, env_ok E -> sendable E m -> seal E rnd m sk keys = Ok text ->
  exists j e h l, document text j /\ jwe_text (rt E 0) j e /\ je_protected e = Some h /\
    jh_skid h = dh_from (m_did m) /\ jh_alg h = jh_alg (m_jwm m) /\ jh_enc h = jh_enc (m_jwm m) /\ jh_kid h = jh_kid (m_jwm m) /\
    jh_jku h = jh_jku (m_jwm m) /\ jh_cty h = jh_cty (m_jwm m) /\ orel same_jwk (jh_jwk (m_jwm m)) (jh_jwk h) /\
    jwe_recipients e = Some l /\ Forall2 (fun dest r => exists kid, jk_kid (rc_header r) = Some kid /\ labelled dest kid) (dh_to (m_did m)) l.
Proof.
  intros E rnd m sk keys text HE HS H. destruct (seal_visible E rnd m sk keys text HE HS H) as [j [e [h [l [H1 [H2 [H3 [[G1 [G2 [G3 [G4 [G5 [G6 [G7 [G8 G9]]]]]]]] [H5 H6]]]]]]]]].
  exists j, e, h, l. split; [exact H1|]. split; [exact H2|]. split; [exact H3|]. split; [symmetry; exact G4|].
  assert (F : forall A (f : jwm_header -> A), (forall x t, f (jh_with_typ x t) = f x) -> (forall x s, f (jh_with_skid x s) = f x) -> f (seal_header m) = f (m_jwm m)).
  { intros A f F1 F2. unfold seal_header. rewrite F2. destruct (jh_typ (m_jwm m)); [..]; try apply F1; reflexivity. }
  rewrite (F _ jh_enc) in G2 by reflexivity. rewrite (F _ jh_kid) in G3 by reflexivity. rewrite (F _ jh_alg) in G5 by reflexivity. rewrite (F _ jh_jku) in G6 by reflexivity.
  rewrite (F _ jh_jwk) in G7 by reflexivity. rewrite (F _ jh_cty) in G9 by reflexivity. split; [now symmetry|]. split; [now symmetry|]. split; [now symmetry|]. split; [now symmetry|].
  split; [now symmetry|]. split; [exact G7|]. split; [exact H5|exact H6].
Qed.
(** And the exact length of the message: nothing is padded. *)
Theorem C67_size : forall E rnd m sk keys text, same_size (xc_enc E) -> same_size (gcm_enc E) -> seal E rnd m sk keys = Ok text ->
  exists j es x s c rs, document text j /\ j = JObj es /\ In ("ciphertext", x) es /\ text_of x s /\ b64_decode s = Some c /\
    List.length rs = List.length (dh_to (m_did m)) /\ String.length c = String.length (as_raw_json (with_recipients m (Some rs))).
Proof. exact seal_size. Qed.

(** Another message to the same people. *)
Definition ex_other (a : crypto_algorithm) : message :=
  let m := ex_jwe a in
  {| m_jwm := m_jwm m; m_did := {| dh_id := "urn:2"; dh_thid := None; dh_pthid := None; dh_type := "other"; dh_to := ["did:toy:bob"; "did:toy:carol"];
       dh_from := Some "did:toy:alice"; dh_created := None; dh_expires := None; dh_from_prior := None; dh_thread := None; dh_other := [("secret", "yes")] |};
     m_recipients := None; m_body := JObj []; m_flat_jwe := m_flat_jwe m; m_flat_jws := m_flat_jws m; m_attachments := [] |}.
Example C67_example : forall a, In a [XC20P; A256GCM] -> alike (ex_jwe a) (ex_other a) /\ m_did (ex_jwe a) <> m_did (ex_other a) /\ same_size (xc_enc toy) /\ same_size (gcm_enc toy) /\
  exists text, seal toy ex_rand (ex_jwe a) alice_key (Some ex_keys) = Ok text /\ exists text', seal toy ex_rand (ex_other a) alice_key (Some ex_keys) = Ok text'.
Proof.
  intros a HA. assert (HX : alike (ex_jwe a) (ex_other a)) by (split; [reflexivity|split; [reflexivity|split; reflexivity]]). split; [exact HX|]. split; [discriminate|].
  assert (HZ : same_size toy_enc) by (intros k n d p c H; injection H as <-; now rewrite slen_app, toy_tag_length).
  split; [exact HZ|]. split; [exact HZ|]. destruct (ex_seals a HA) as [text HT]. exists text. split; [exact HT|].
  apply (seal_total toy ex_rand (ex_other a) alice_key (Some ex_keys) a).
  - exact toy_crypto.
  - exact toy_total.
  - exact ex_rand_ok.
  - intros ->. destruct HA as [H|[H|[]]]; discriminate.
  - destruct HA as [<-|[<-|[]]]; reflexivity.
  - apply srepeat_length.
  - discriminate.
  - destruct HA as [<-|[<-|[]]]; discriminate.
  - intros l H. injection H as <-. reflexivity.
  - exact ex_keys_known.
Qed.

Print Assumptions C66_written.
Print Assumptions C66_received.
Print Assumptions C66_sending.
Print Assumptions C66_plain.
Print Assumptions C66_envelopes.
Print Assumptions C66_signed.
Print Assumptions C66_sealed.
Print Assumptions C66_orders_refuted.
Print Assumptions C67_shown.
Print Assumptions C67_explained.
Print Assumptions C67_visible.
Print Assumptions C67_size.
