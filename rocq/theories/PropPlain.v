(** Properties C01, C02, C10, C24, C26, C43, C45: plain messages and classification. *)

From Coq Require Import Ascii String Arith NArith List Bool Permutation Sorted Lia.
From Verif Require Import Bytes BytesFacts Base64 Utf8 Json JsonFacts SpecJson GrammarFacts Value Types Serde SerdeFacts Message Envelope
  Spec SpecFacts CryptoLaws Examples BodyFacts CodecFacts DecodeFacts PlainFacts PlainFacts2.
Import ListNotations.
Local Open Scope string_scope.

(** ** C01 *)

Theorem C01_plain_round_trip : forall E m sk pk spk, env_ok E -> sendable E m ->
  jh_typ (m_jwm m) <> DidCommJwe -> jh_typ (m_jwm m) <> DidCommJws -> avoids envelope_names (dh_other (m_did m)) ->
  exists m', receive E (as_raw_json m) sk pk spk = Ok m' /\ same_message m m' /\ flags_reset m'.
Proof.
  intros E m sk pk spk HE HS N1 N2 HA. exists (re_message (rt E 9) m). split; [|split; [now apply re_message_same|apply re_message_flags]].
  apply receive_plain; [exact HS|now split|exact HA].
Qed.
(** The same for the entry point of the external crypto path, whatever [typ] and names say. *)
Theorem C01_external_round_trip : forall E k m, env_ok E -> sendable E m ->
  exists m', receive_external_crypto (rt E k) (as_raw_json m) = Ok m' /\ same_message m m' /\ flags_reset m'.
Proof.
  intros E k m HE HS. exists (re_message (rt E k) m). split; [|split; [now apply re_message_same|apply re_message_flags]].
  unfold receive_external_crypto, as_raw_json. now rewrite (sendable_from_slice E k m HS).
Qed.

Example C01_example : exists m', receive toy (as_raw_json ex_plain) (Some "key") None (Some "k") = Ok m' /\ same_message ex_plain m' /\ flags_reset m'.
Proof. apply C01_plain_round_trip; [exact toy_env|exact ex_plain_sendable|discriminate|discriminate|exact ex_plain_free]. Qed.

(** ** C02 *)

(** Nobody can receive a message with an empty [to]. *)
Theorem C02_empty_to : forall E m sk pk spk, rust_message m -> avoids envelope_names (dh_other (m_did m)) -> dh_to (m_did m) = [] ->
  receive E (as_raw_json m) sk pk spk = Err ESerde.
Proof. intros E m sk pk spk HR HA HT. apply unreadable_receive; try assumption. now apply empty_to_unreadable. Qed.
(** A custom header named like a header field never survives. *)
Theorem C02_reserved_header : forall E m sk pk spk m' k, env_ok E -> rust_message m ->
  In k (map fst (dh_other (m_did m))) -> In k header_names -> receive E (as_raw_json m) sk pk spk = Ok m' -> ~ same_message m m'.
Proof. exact reserved_never_same. Qed.
(** A custom header [iv] makes the message look encrypted. *)
Theorem C02_iv_header : forall E m sk pk spk, rust_message m -> In "iv" (map fst (dh_other (m_did m))) ->
  ~ In "ciphertext" (map fst (dh_other (m_did m))) ->
  receive E (as_raw_json m) sk pk spk = Err (match sk with Some _ => ESerde | None => EGeneric "missing encryption recipient private key" end).
Proof. intros E m sk pk spk HR HI HC. destruct sk as [sk|]; [now apply iv_key|now apply iv_no_key]. Qed.
(** A custom header [signature] or [signatures] makes it look signed. *)
Theorem C02_signature_header : forall E m sk pk spk, sendable E m -> ~ In "iv" (map fst (dh_other (m_did m))) ->
  (In "signature" (map fst (dh_other (m_did m))) \/ In "signatures" (map fst (dh_other (m_did m)))) -> jh_alg (m_jwm m) = None ->
  receive E (as_raw_json m) sk pk spk = Err EJweParse.
Proof. exact signature_no_alg. Qed.
(** When the header names an algorithm as well, the body is taken for a signed envelope and replaces the message, so nothing
    is received unless the body has a member [payload]. *)
Theorem C02_signature_header_body : forall E m sk pk spk m', sendable E m -> ~ In "iv" (map fst (dh_other (m_did m))) ->
  (In "signature" (map fst (dh_other (m_did m))) \/ In "signatures" (map fst (dh_other (m_did m)))) ->
  (receive E (as_raw_json m) sk pk spk = Ok m' <->
   jh_alg (m_jwm m) <> None /\ exists key v, signing_key spk (jh_kid (m_jwm m)) = Ok key /\
     verify E (rt E 6) (rt E 7) (get_body m) key = Ok v /\ message_from_str (rt E 9) (message_json v) = Some m').
Proof.
  intros E m sk pk spk m' HS HV HG. destruct (jh_alg (m_jwm m)) as [alg|] eqn:HA.
  - rewrite (signature_alg E m sk pk spk alg HS HV HG HA). split.
    + intros H. split; [discriminate|]. destruct (signing_key spk (jh_kid (m_jwm m))) as [key| |]; cbn [rbind] in H; [|discriminate|discriminate].
      destruct (verify E (rt E 6) (rt E 7) (get_body m) key) as [v| |] eqn:EV; cbn [rbind] in H; [|discriminate|discriminate].
      exists key, v. split; [reflexivity|]. split; [exact EV|]. now apply oerr_ok in H.
    + intros [_ (key & v & H1 & H2 & H3)]. rewrite H1. cbn [rbind]. rewrite H2. cbn [rbind]. rewrite H3. reflexivity.
  - rewrite (signature_no_alg E m sk pk spk HS HV HG HA). split; [discriminate|]. intros [H _]. congruence.
Qed.
Theorem C02_signature_header_lost : forall E m sk pk spk m', sendable E m -> ~ In "iv" (map fst (dh_other (m_did m))) ->
  (In "signature" (map fst (dh_other (m_did m))) \/ In "signatures" (map fst (dh_other (m_did m)))) ->
  (forall es, m_body m = JObj es -> ~ In "payload" (map fst es)) -> receive E (as_raw_json m) sk pk spk <> Ok m'.
Proof.
  intros E m sk pk spk m' HS HV HG HB H. apply C02_signature_header_body in H; [|assumption|assumption|assumption].
  destruct H as [_ (key & v & _ & H & _)]. unfold verify in H. assert (HN : jws_from_slice (rt E 6) (get_body m) = None); [|rewrite HN in H; discriminate].
  unfold jws_from_slice, parse_slice. destruct (utf8_valid (get_body m)); [|reflexivity]. unfold get_body.
  rewrite parse_print by apply rust_value_wf, HS. cbn [obind]. unfold de_jws. destruct (m_body m) as [| | | | |es] eqn:EB; try reflexivity.
  specialize (HB es eq_refl). rewrite (member_absent es "payload") by (now apply occ_fresh). reflexivity.
Qed.

Definition ex_custom (others : list (string * string)) : message :=
  with_did ex_small (dh_with_other (m_did ex_small) others).
Example C02_example_to : exists m, rust_message m /\ avoids envelope_names (dh_other (m_did m)) /\ dh_to (m_did m) = [] /\
  receive toy (as_raw_json m) None None None = Err ESerde.
Proof.
  (* [Message::new().to(&[])] *)
  set (m := set_to (message_new "urn:uuid") []). assert (HR : rust_message m) by (unfold m; cbn; rust_msg). exists m.
  assert (HA : avoids envelope_names (dh_other (m_did m))) by avoid_tac.
  split; [exact HR|]. split; [exact HA|]. split; [reflexivity|]. apply C02_empty_to; [exact HR|exact HA|reflexivity].
Qed.
Example C02_example_reserved : exists m m', rust_message m /\ In "enc" (map fst (dh_other (m_did m))) /\ In "enc" header_names /\
  receive toy (as_raw_json m) None None None = Ok m'.
Proof.
  exists (ex_custom [("x", "y"); ("enc", "A")]). eexists. split; [unfold ex_custom, ex_small; cbn; rust_msg|]. split; [cbn; tauto|].
  split; [cbn; tauto|]. vm_compute. reflexivity.
Qed.
Example C02_example_iv : let m := ex_custom [("iv", "0")] in rust_message m /\ receive toy (as_raw_json m) (Some "k") None None = Err ESerde.
Proof.
  intros m. assert (HR : rust_message m) by (unfold m, ex_custom, ex_small; cbn; rust_msg). split; [exact HR|].
  apply (C02_iv_header toy m (Some "k")); [exact HR|cbn; tauto|cbn; intros [G|[]]; discriminate].
Qed.
Example C02_example_signature : let m := ex_custom [("signature", "0")] in sendable toy m /\ receive toy (as_raw_json m) None None None = Err EJweParse.
Proof.
  intros m. assert (HS : sendable toy m) by (unfold m, ex_custom, ex_small; cbn; send_msg). split; [exact HS|].
  apply C02_signature_header; [exact HS|cbn; intros [G|[]]; discriminate|cbn; tauto|reflexivity].
Qed.

(** ** C10 *)

(** For texts that are not classified as encrypted or signed the keys play no role. *)
Theorem C10_keys_ignored : forall E text sk pk spk t, get_message_type (rt E 0) text = Ok t -> t <> DidCommJwe -> t <> DidCommJws ->
  receive E text sk pk spk = receive E text None None None.
Proof. exact receive_plain_keys. Qed.
(** So an unsigned message is accepted with any signing key. *)
Theorem C10_unsigned_accepted : forall E m key, env_ok E -> sendable E m ->
  jh_typ (m_jwm m) <> DidCommJwe -> jh_typ (m_jwm m) <> DidCommJws -> avoids envelope_names (dh_other (m_did m)) ->
  exists m', receive E (as_raw_json m) None None (Some key) = Ok m' /\ same_message m m'.
Proof. intros E m key HE HS N1 N2 HA. destruct (C01_plain_round_trip E m None None (Some key) HE HS N1 N2 HA) as [m' [H1 [H2 _]]]. eauto. Qed.
(** The same behind an encryption layer: if the decrypted text is not classified as signed, the signing key plays no role. *)
Theorem C10_decrypted_unsigned : forall E text sk pk spk text' t, get_message_type (rt E 0) text = Ok DidCommJwe ->
  receive_jwe E text sk pk = Ok text' -> get_message_type (rt E 4) text' = Ok t -> t <> DidCommJws ->
  receive E text (Some sk) pk spk = receive E text (Some sk) pk None.
Proof.
  intros E text sk pk spk text' t HT HJ HT2 HN. unfold receive. rewrite HT. cbn [rbind is_jwe_type oerr]. rewrite HJ. cbn [rbind].
  rewrite HT2. cbn [rbind]. destruct t; congruence || reflexivity.
Qed.
Example C10_example : get_message_type (rt toy 0) (as_raw_json ex_small) = Ok DidCommRaw /\
  exists m', receive toy (as_raw_json ex_small) None None (Some "any key") = Ok m' /\ same_message ex_small m'.
Proof.
  split; [vm_compute; reflexivity|]. apply C10_unsigned_accepted; [exact toy_env|exact ex_small_sendable|discriminate|discriminate|exact ex_small_free].
Qed.

(** ** C24 *)

Theorem C24_verify : forall E R1 R2 text key, verify E R1 R2 text key <> Panic.
Proof. exact verify_np. Qed.
Theorem C24_receive_without_key : forall E text pk spk, receive E text None pk spk <> Panic.
Proof. exact receive_no_key_np. Qed.
Theorem C24_receive_not_encrypted : forall E text sk pk spk, get_message_type (rt E 0) text <> Ok DidCommJwe -> receive E text sk pk spk <> Panic.
Proof. exact receive_not_jwe_np. Qed.
(** Parsing a body, the header of an envelope or the iv does not panic either. *)
Theorem C24_parsing : forall R m text, set_body R m text <> Panic /\ get_message_type R text <> Panic /\ receive_external_crypto R text <> Panic
  /\ get_iv R text <> Panic.
Proof.
  intros R m text. split; [|split; [apply get_message_type_np|split]].
  - unfold set_body, oerr. destruct (parse text) as [j|]; cbn [rbind]; [|discriminate]. destruct (value_of R max_depth j); discriminate.
  - unfold receive_external_crypto, oerr. destruct (message_from_slice R text); discriminate.
  - unfold get_iv, oerr. destruct (utf8_valid text); [|discriminate].
    assert (K : forall x : res json, x <> Panic ->
      (let? j := x in let? v := match value_of R max_depth j with Some a => Ok a | None => Err ESerde end in
       match (match v with JObj es => map_get "iv" es | _ => None end) with
       | Some (JStr _ t) => if negb (String.length t =? 24)%nat then Err (EGeneric "IV [nonce] size is incorrect") else Ok t
       | Some _ => Err (EGeneric "wrong nonce format") | None => Err (EGeneric "iv is not found in JOSE header") end) <> Panic).
    { intros x Hx. destruct x as [j|e|]; cbn [rbind]; [|discriminate|congruence]. destruct (value_of R max_depth j) as [v|]; cbn [rbind]; [|discriminate].
      destruct (match v with JObj es => map_get "iv" es | _ => None end) as [[]|]; try discriminate.
      destruct (negb _); discriminate. }
    apply K. destruct (before_dot text) as [h|].
    + destruct (b64_decode h) as [d|]; cbn [rbind]; [|discriminate]. destruct (utf8_valid d); [|discriminate]. destruct (parse d); discriminate.
    + destruct (parse text); discriminate.
Qed.
(** Malformed signed envelopes as an instance. *)
Example C24_example : receive toy "{""payload"":""!"",""signature"":""AA"",""protected"":""e30""}" (Some "") None None = Err EJwsParse /\
  get_message_type (rt toy 0) "{""payload"":""!"",""signature"":""AA""}" = Ok DidCommJws.
Proof. split; vm_compute; reflexivity. Qed.

(** ** C26 *)

Theorem C26_classification : forall R text es t, document text (JObj es) ->
  (get_message_type R text = Ok t <->
   at_most_once es "iv" /\ at_most_once es "signature" /\ at_most_once es "signatures" /\
   ((has_member es "iv" /\ t = DidCommJwe) \/
    (~ has_member es "iv" /\ (has_member es "signature" \/ has_member es "signatures") /\ t = DidCommJws) \/
    (~ has_member es "iv" /\ ~ has_member es "signature" /\ ~ has_member es "signatures" /\
     exists m, message_from_str R text = Some m /\ t = jh_typ (m_jwm m)))).
Proof. intros R text es t H. apply document_iff in H. now apply classify_members. Qed.
(** Only objects are ever received. *)
Theorem C26_only_objects : forall E text sk pk spk m, receive E text sk pk spk = Ok m -> exists es, document text (JObj es).
Proof. intros E text sk pk spk m H. apply receive_object in H. destruct H as [es H]. exists es. now apply document_iff. Qed.
(** The encryption keys matter only for texts classified as encrypted. *)
Theorem C26_encryption_keys : forall E text sk pk spk t, get_message_type (rt E 0) text = Ok t -> t <> DidCommJwe ->
  receive E text sk pk spk = receive E text None None spk.
Proof. exact receive_signed_keys. Qed.
(** The class does not depend on hash map orders. *)
Theorem C26_deterministic : forall E text k k' t t', get_message_type (rt E k) text = Ok t -> get_message_type (rt E k') text = Ok t' -> t = t'.
Proof. exact classify_stable. Qed.
Example C26_example : get_message_type (rt toy 0) "{""signature"":1,""iv"":[]}" = Ok DidCommJwe /\
  get_message_type (rt toy 0) "{""signature"":1,""iv"":null}" = Ok DidCommJws /\
  get_message_type (rt toy 0) "{""signature"":1,""iv"":1,""iv"":1}" = Err ESerde /\
  get_message_type (rt toy 0) (as_raw_json (set_typ ex_small DidCommJwe)) = Ok DidCommJwe.
Proof. repeat split; vm_compute; reflexivity. Qed.

(** ** C43 *)

Theorem C43_resend : forall E text sk pk spk m sk' pk' spk', env_ok E -> rust_string text ->
  receive E text sk pk spk = Ok m -> (exists t, get_message_type (rt E 0) text = Ok t /\ t <> DidCommJwe /\ t <> DidCommJws) ->
  dh_to (m_did m) <> [] -> nested 126 (m_body m) -> stable (rt E 0) (m_body m) ->
  exists m', receive E (as_raw_json m) sk' pk' spk' = Ok m' /\ same_message m m' /\ flags_reset m'.
Proof.
  intros E text sk pk spk m sk' pk' spk' HE HU HR HT H1 HN H2. destruct (plain_classified_free E text m sk pk spk HE HR HT) as [F1 [F2 F3]].
  eapply resend; eassumption.
Qed.
(** Any accepted text, also encrypted or signed ones, as long as the result itself is a plain message. *)
Theorem C43_resend_any : forall E text sk pk spk m sk' pk' spk', env_ok E -> rust_string text ->
  receive E text sk pk spk = Ok m -> jh_typ (m_jwm m) <> DidCommJwe -> jh_typ (m_jwm m) <> DidCommJws ->
  avoids envelope_names (dh_other (m_did m)) -> dh_to (m_did m) <> [] -> nested 126 (m_body m) -> stable (rt E 0) (m_body m) ->
  exists m', receive E (as_raw_json m) sk' pk' spk' = Ok m' /\ same_message m m' /\ flags_reset m'.
Proof. exact resend. Qed.
Definition ex_foreign : string :=
  " { ""typ"":""application/didcomm-plain+json"", ""unknown"" : ""kept"", ""id"" : ""1"", ""type"" : ""t"",
      ""body"" : { ""b"": 1, ""a"": 0 , ""a"" : 2 }, ""to"" : [""did:x:y""], ""attachments"": [], ""number"" : ""12"" } ".
Example C43_example : rust_string ex_foreign /\ exists m, receive toy ex_foreign None None None = Ok m /\ dh_to (m_did m) <> [] /\
  get_message_type (rt toy 0) ex_foreign = Ok DidCommRaw /\ nested 126 (m_body m) /\ stable (rt toy 0) (m_body m).
Proof.
  split; [vm_compute; reflexivity|]. eexists. split; [vm_compute; reflexivity|]. split; [discriminate|]. split; [vm_compute; reflexivity|]. split; [apply nested_depth; apply Nat.leb_le; vm_compute; reflexivity|]. cbn. stable_val.
Qed.

(** ** C45 *)

Theorem C45_expiry_ignored : forall E m clock e sk pk spk, env_ok E -> sendable E m ->
  jh_typ (m_jwm m) <> DidCommJwe -> jh_typ (m_jwm m) <> DidCommJws -> avoids envelope_names (dh_other (m_did m)) ->
  opt_all is_u64 clock -> opt_all is_u64 e ->
  exists m', receive E (as_raw_json (timed clock m e)) sk pk spk = Ok m' /\ dh_expires (m_did m') = e /\ m_body m' = m_body m.
Proof.
  intros E m clock e sk pk spk HE HS N1 N2 HA HC He.
  destruct (C01_plain_round_trip E (timed clock m e) sk pk spk HE (with_expires_sendable E m clock e HS HC He) N1 N2 HA) as [m' [H1 [H2 _]]].
  exists m'. split; [exact H1|]. destruct H2 as [_ [D [_ [B _]]]]. split; [|symmetry; exact B]. symmetry. apply D.
Qed.
(** The same for any plain text that was accepted once: whatever expiry is put into it, it is accepted again. *)
Theorem C45_expiry_of_received : forall E text sk pk spk m clock e sk' pk' spk', env_ok E -> rust_string text ->
  receive E text sk pk spk = Ok m -> (exists t, get_message_type (rt E 0) text = Ok t /\ t <> DidCommJwe /\ t <> DidCommJws) ->
  dh_to (m_did m) <> [] -> nested 126 (m_body m) -> stable (rt E 0) (m_body m) -> opt_all is_u64 clock -> opt_all is_u64 e ->
  exists m', receive E (as_raw_json (timed clock m e)) sk' pk' spk' = Ok m' /\ dh_expires (m_did m') = e /\ m_body m' = m_body m.
Proof.
  intros E text sk pk spk m clock e sk' pk' spk' HE HU HR HT H1 HN H2 HC He. destruct (plain_classified_free E text m sk pk spk HE HR HT) as [F1 [F2 F3]].
  pose proof (receive_decoded E text sk pk spk m HE HU HR) as HD.
  apply C45_expiry_ignored; [exact HE|apply decoded_sendable; try assumption; now apply nested_depth|assumption|assumption|assumption|exact HC|exact He].
Qed.
Example C45_example : exists m', receive toy (as_raw_json (timed (Some 1700000000%N) ex_plain (Some 1%N))) None None None = Ok m' /\
  dh_expires (m_did m') = Some 1%N /\ m_body m' = m_body ex_plain.
Proof.
  apply C45_expiry_ignored; [exact toy_env|exact ex_plain_sendable|discriminate|discriminate|exact ex_plain_free|cbn; u64_tac|cbn; u64_tac].
Qed.

Print Assumptions C01_plain_round_trip.
Print Assumptions C01_external_round_trip.
Print Assumptions C02_empty_to.
Print Assumptions C02_reserved_header.
Print Assumptions C02_iv_header.
Print Assumptions C02_signature_header.
Print Assumptions C02_signature_header_body.
Print Assumptions C02_signature_header_lost.
Print Assumptions C10_keys_ignored.
Print Assumptions C10_unsigned_accepted.
Print Assumptions C10_decrypted_unsigned.
Print Assumptions C24_verify.
Print Assumptions C24_receive_without_key.
Print Assumptions C24_receive_not_encrypted.
Print Assumptions C24_parsing.
Print Assumptions C26_classification.
Print Assumptions C26_only_objects.
Print Assumptions C26_encryption_keys.
Print Assumptions C26_deterministic.
Print Assumptions C43_resend.
Print Assumptions C43_resend_any.
Print Assumptions C45_expiry_ignored.
Print Assumptions C45_expiry_of_received.
