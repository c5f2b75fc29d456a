(** The crate's own tests, replayed on the model: each example states what one test of /repo asserts, with the values
    the test uses.  Random values (identifiers, nonces, ephemeral keys) and generated key pairs are arbitrary constants;
    the ciphers, key agreement and signatures are those of [test_env]. *)

From Coq Require Import Ascii String Arith NArith ZArith List Bool Lia.
From Verif Require Import Bytes Base64 Utf8 Json Value Types Serde Message Attach Envelope Build CryptoLaws.
Import ListNotations.
Local Open Scope string_scope.

Definition is_ok {A} (r : res A) : bool := match r with Ok _ => true | _ => false end.
Definition is_err {A} (r : res A) : bool := match r with Err _ => true | _ => false end.

(** ** Keys and names: utilities/src/lib.rs:14-47 and the texts of the tests *)
Definition alice : string := srepeat 32 "a".
Definition bob : string := srepeat 32 "b".
Definition mediator : string := srepeat 32 "m".
Definition did_alice : string := "did:key:z6MkiTBz1ymuepAQ4HEHYSF1H8quG5GLVVQR3djdX3mDooWp".
Definition did_bob : string := "did:key:z6MkjchhfUsD6mmvni8mCdXHw216Xrm9bQe2mBH1P5RDjVJG".
Definition did_mediator : string := "did:key:z6MknGc3ocHs3zdPiJbnaaqDi58NGb4pk1Sp9WxWufuXSdxf".
Definition test_enc (k n a p : string) : option string := Some (p ++ take 16 k).
Definition test_dec (k n a c : string) : option string :=
  let l := (String.length c - 16)%nat in if String.eqb (drop l c) (take 16 k) then Some (take l c) else None.
Definition test_env : env := {|
  x_pub := x_pub toy; x_dh := x_dh toy; xc_enc := test_enc; xc_dec := test_dec; gcm_enc := test_enc; gcm_dec := test_dec;
  cbc_enc := cbc_enc toy; sig_sign := fun a k m => Some ("sig" ++ k); sig_verify := fun a k m s => Some (String.eqb s ("sig" ++ k));
  resolve := fun did =>
    if String.eqb did did_alice then Some (toy_doc alice)
    else if String.eqb did did_bob then Some (toy_doc bob)
    else if String.eqb did did_mediator then Some (toy_doc mediator) else None;
  fl := fl toy; ho := ho toy |}.
Definition test_rand : seal_rand :=
  {| sr_rec := fun i => {| rr_esk := srepeat 32 "e"; rr_iv := fun n => srepeat n "n"; rr_swap := Nat.even i |}; sr_iv := srepeat 24 "i" |}.
Definition uuid : string := "f81d4fae-7dec-11d0-a765-00a0c91e6bf6".
Definition base : message := set_to (set_from (message_new uuid) did_alice) [did_bob].
Definition sealing (a : crypto_algorithm) : message := as_jwe (resolve test_env) base a None.

Definition xc (m : message) : message := as_jwe (resolve test_env) m XC20P (Some bob).
Definition flat (m : message) : message := as_flat_jwe (resolve test_env) m XC20P (Some bob).
Definition foo_bar : string := "{""foo"":""bar""}".
(** [Value] of a text, a member of it (src/messages/message.rs:198 reads bodies the same way) *)
Definition value (text : string) : option json :=
  match parse text with Some j => value_of (rt test_env 0) max_depth j | None => None end.
Definition field (name : string) (v : option json) : option json :=
  match v with Some (JObj l) => map_get name l | _ => None end.
Definition as_text (v : option json) : option string := match v with Some (JStr _ s) => Some s | _ => None end.
Definition as_list (v : option json) : option (list json) := match v with Some (JArr l) => Some l | _ => None end.
Definition decoded (v : option json) : option json :=
  match as_text v with Some s => match b64_decode s with Some t => value t | None => None end | None => None end.
Definition on {A B} (r : res A) (f : A -> B) (d : B) : B := match r with Ok a => f a | _ => d end.
Definition body_of (r : res message) : string := on r get_body "".

(** ** src/crypto/encryptor.rs *)

Definition long_key : string := "super duper key 32 bytes long!!!".
Definition encrypt_decrypt (a : crypto_algorithm) (payload : string) : res (message * message) :=
  let? m := set_body (rt test_env 0) (as_jwe (resolve test_env) (message_new uuid) a None) payload in
  let? text := encrypt (srepeat 24 "i") m (encryptor test_env a) long_key in
  let? s := decrypt (rt test_env 0) (rt test_env 1) text (decrypter test_env a) long_key in Ok (m, s).
(** Test xc20p_test, src/crypto/encryptor.rs:147-172 *)
Example xc20p_test : on (encrypt_decrypt XC20P "{""test"":""message's body - can be anything...""}")
  (fun p => m_jwm (snd p) = m_jwm (fst p) /\ get_body (snd p) = "{""test"":""message's body - can be anything...""}") False.
Proof. vm_compute. split; reflexivity. Qed.
(** Test a256gcm_test, src/crypto/encryptor.rs:174-196 *)
Example a256gcm_test : on (encrypt_decrypt A256GCM "{""example"":""message's body - can be anything...""}")
  (fun p => m_jwm (snd p) = m_jwm (fst p) /\ get_body (snd p) = "{""example"":""message's body - can be anything...""}") False.
Proof. vm_compute. split; reflexivity. Qed.

(** ** src/messages/message_raw_crypto.rs *)

(** Tests with plugged-in ciphers that use no associated data, src/messages/message_raw_crypto.rs:241-353 *)
Example plugin_crypto : forall a, In a [A256GCM; XC20P] ->
  on (let? text := encrypt (srepeat 24 "i") (as_jwe (resolve test_env) (message_new uuid) a None)
                     (fun n k m _ => oerr (test_enc k n "" m) (EGeneric "")) long_key in
      decrypt (rt test_env 0) (rt test_env 1) text (fun n k m _ => oerr (test_dec k n "" m) (EGeneric "")) long_key)
     (fun m => dh_id (m_did m) = uuid) False.
Proof. intros a [<-|[<-|[]]]; vm_compute; reflexivity. Qed.

(** ** src/messages/message.rs *)

(** Test iv_from_json_test, src/messages/message.rs:650-673 *)
Example iv_from_json_test : get_iv (rt test_env 0) (" { ""protected"": ""eyJ0eXAiOiJKV00iLCJlbmMiOiJBMjU2R0NNIiwia2lkIjoiUEdvWHpzME5XYVJfbWVLZ1RaTGJFdURvU1ZUYUZ1eXJiV0k3VjlkcGpDZyIsImFsZyI6IkVDREgtRVMrQTI1NktXIiwiZXBrIjp7Imt0eSI6IkVDIiwiY3J2IjoiUC0yNTYiLCJ4IjoiLU5oN1NoUkJfeGFDQlpSZElpVkN1bDNTb1IwWXc0VEdFUXFxR2lqMXZKcyIsInkiOiI5dEx4ODFQTWZRa3JPdzh5dUkyWXdJMG83TXROemFDR2ZDQmJaQlc1WXJNIn19"",
                ""recipients"": [
                  {
                    ""encrypted_key"": ""J1Fs9JaDjOT_5481ORQWfEZmHy7OjE3pTNKccnK7hlqjxbPalQWWLg""
                  }
                ],
                ""iv"": ""u5kIzo0m_d2PjI4mu5kIzo0m"",
                ""ciphertext"": ""qGuFFoHy7HBmkf2BaY6eREwzEjn6O_FnRoXj2H-DAXo1PgQdfON-_1QbxtnT8e8z_M6Gown7s8fLtYNmIHAuixqFQnSA4fdMcMSi02z1MYEn2JC-1EkVbWr4TqQgFP1EyymB6XjCWDiwTYd2xpKoUshu8WW601HLSgFIRUG3-cK_ZSdFaoWosIgAH5EQ2ayJkRB_7dXuo9Bi1MK6TYGZKezc6rpCK_VRSnLXhFwa1C3T0QBes"",
                ""tag"": ""doeAoagwJe9BwKayfcduiw""
            }") = Ok "u5kIzo0m_d2PjI4mu5kIzo0m".
Proof. vm_compute. reflexivity. Qed.
(** Test iv_from_compact_json_test, src/messages/message.rs:675-687 *)
Example iv_from_compact_json_test : get_iv (rt test_env 0) "eyJ0eXAiOiJKV00iLCJlbmMiOiJBMjU2R0NNIiwia2lkIjoiUEdvWHpzME5XYVJfbWVLZ1RaTGJFdURvU1ZUYUZ1eXJiV0k3VjlkcGpDZyIsImFsZyI6IkVDREgtRVMrQTI1NktXIiwiaXYiOiAidTVrSXpvMG1fZDJQakk0bXU1a0l6bzBtIn0."
  = Ok "u5kIzo0m_d2PjI4mu5kIzo0m".
Proof. vm_compute. reflexivity. Qed.
(** Test create_and_send_without_resolving_dids, src/messages/message.rs:730-740: no receiver named, the default header
    holds one empty name. *)
Example create_and_send_without_resolving_dids : is_ok (seal test_env test_rand (xc (message_new uuid)) alice (Some [Some bob])) = true.
Proof. vm_compute. reflexivity. Qed.
(** Tests create_and_send, receive_test, send_receive_didkey_test, src/messages/message.rs:716-766, 796-814: keys are
    looked up, with and without the sender's key given. *)
Example receive_test : on (seal test_env test_rand (sealing XC20P) alice None)
  (fun text => is_ok (receive test_env text (Some bob) (Some alice) None) = true /\ is_ok (receive test_env text (Some bob) None None) = true) False.
Proof. vm_compute. split; reflexivity. Qed.
(** Tests receive_test_without_resolving_dids, send_receive_didkey_explicit_pubkey_test, src/messages/message.rs:768-794, 816-840 *)
Example receive_test_without_resolving_dids :
  is_ok (let? text := seal test_env test_rand (xc base) alice (Some [Some bob]) in receive test_env text (Some bob) (Some alice) None) = true.
Proof. vm_compute. reflexivity. Qed.
(** Tests send_receive_didkey_test_1pu_aes256 and …_explicit_pubkey, src/messages/message.rs:842-887 *)
Example send_receive_didkey_test_1pu_aes256 : on (seal test_env test_rand (sealing A256GCM) alice None)
  (fun text => is_ok (receive test_env text (Some bob) None None) = true /\ is_ok (receive test_env text (Some bob) (Some alice) None) = true) False.
Proof. vm_compute. split; reflexivity. Qed.
(** Test send_receive_didkey_multiple_recipients_test, src/messages/message.rs:889-915 *)
Example send_receive_didkey_multiple_recipients_test :
  on (seal test_env test_rand (as_jwe (resolve test_env) (set_to base [did_mediator]) XC20P None) alice None)
     (fun text => is_ok (receive test_env text (Some bob) None None) = true /\ is_ok (receive test_env text (Some mediator) None None) = true) False.
Proof. vm_compute. split; reflexivity. Qed.
(** What the mediator does with a forward message: tests mediated_didkey_test, src/messages/message.rs:917-959, and
    send_receive_mediated_encrypted_xc20p_json_test, tests/send_receive.rs:172-223 *)
Definition forwarded (text : string) (sender : option string) : res string :=
  let? f := receive test_env text (Some mediator) sender None in
  let? j := oerr (parse (get_body f)) ESerde in
  let? d := oerr (de_mediated j) ESerde in
  let? e := oerr (jwe_from_slice (rt test_env 0) (md_payload d)) ESerde in Ok (md_payload d).
Example mediated_didkey_test :
  is_ok (let? text := routed_by test_env test_rand test_rand uuid (sealing XC20P) alice None did_mediator None in
         let? inner := forwarded text None in receive test_env inner (Some bob) None None) = true.
Proof. vm_compute. reflexivity. Qed.
(** Test can_pass_explicit_signing_verification_keys, src/messages/message.rs:961-1015: the header names a wrong key. *)
Example can_pass_explicit_signing_verification_keys :
  on (let? m := set_body (rt test_env 0) base foo_bar in
      seal_signed test_env test_rand (set_kid (flat m) (hex_encode (srepeat 32 "001"))) alice (Some [Some bob]) EdDsa alice)
     (fun text => is_err (receive test_env text (Some bob) (Some alice) None) = true /\
        is_err (receive test_env text (Some bob) (Some alice) (Some (srepeat 32 "000"))) = true /\
        body_of (receive test_env text (Some bob) (Some alice) (Some alice)) = foo_bar) False.
Proof. vm_compute. repeat split; reflexivity. Qed.

(** ** src/messages/headers/decorators.rs, for every identifier instead of generated ones *)

(** Tests create_implicit_thread to non_implicit_thread_…, src/messages/headers/decorators.rs:143-166 *)
Example create_implicit_thread : forall id, th_thid (thread_implicit id) = id.
Proof. reflexivity. Qed.
Example create_effective_implicit_reply_thread : forall id sender, th_thid (thread_effective_reply id sender) = id.
Proof. reflexivity. Qed.
Example implicit_thread_without_received_order_successfully_detected : forall id, is_implicit_reply (thread_implicit_reply id) id = false.
Proof. intros id. unfold is_implicit_reply. cbn [th_thid thread_implicit_reply]. now rewrite String.eqb_refl. Qed.
Example non_implicit_thread_with_received_order_successfully_detected : forall id,
  is_implicit_reply {| th_thid := th_thid (thread_implicit_reply id); th_pthid := th_pthid (thread_implicit_reply id);
    th_sender_order := None; th_received_orders := Some [("test", 1%N)]; th_goal_code := None |} id = false.
Proof. intros id. unfold is_implicit_reply. cbn [th_thid thread_implicit_reply]. now rewrite String.eqb_refl. Qed.

(** ** src/messages/attachment.rs; the tests' unit struct [Data] is the value null *)

Definition de_data (s : string) : option unit := match parse s with Some JNull => Some tt | _ => None end.
Definition with_data : message := append_attachment "2026-11-16T00:00:00+00:00" (message_new uuid) (builder_try_from "application/json" JNull).
(** Test deserialize_json_formatteed_attachments_successfully, src/messages/attachment.rs:343-353 *)
Example deserialize_json_formatted_attachments_successfully :
  on (deserialize_attachments de_data with_data "application/json") (fun l => List.length l = 1) False.
Proof. vm_compute. reflexivity. Qed.
(** Test cannot_deserialize_attachments_with_invalid_format, src/messages/attachment.rs:355-365 *)
Example cannot_deserialize_attachments_with_invalid_format :
  deserialize_attachments de_data with_data "application/yaml" = Err (EAttachment "unsupported media type").
Proof. vm_compute. reflexivity. Qed.

(** ** tests/message_type.rs *)

(** Test sets_message_type_correctly_for_plain_messages, tests/message_type.rs:9-26 *)
Example plain_type : as_text (field "typ" (value (message_json base))) = Some "application/didcomm-plain+json".
Proof. vm_compute. reflexivity. Qed.
(** Test sets_message_type_correctly_for_signed_messages, tests/message_type.rs:41-69 *)
Example signed_type : on (sign (as_flat_jws base EdDsa) (signer test_env EdDsa) alice)
  (fun text => as_text (field "typ" (decoded (field "protected" (value text)))) = Some "application/didcomm-signed+json") False.
Proof. vm_compute. reflexivity. Qed.
(** Test sets_message_type_correctly_for_signed_and_encrypted_messages, tests/message_type.rs:71-112 *)
Example signed_and_encrypted_type : on (seal_signed test_env test_rand (set_kid (xc base) (hex_encode alice)) alice (Some [Some bob]) EdDsa alice)
  (fun text => as_text (field "typ" (decoded (field "protected" (value text)))) = Some "application/didcomm-encrypted+json") False.
Proof. vm_compute. reflexivity. Qed.
(** Test sets_message_type_correctly_for_forwarded_messages, tests/message_type.rs:114-154 *)
Example forwarded_type : on (routed_by test_env test_rand test_rand uuid (xc base) alice (Some [Some bob]) did_mediator (Some mediator))
  (fun text => as_text (field "typ" (decoded (field "protected" (value text)))) = Some "https://didcomm.org/routing/2.0/forward") False.
Proof. vm_compute. reflexivity. Qed.
(** Test keeps_inner_message_type_as_plain_for_signed_messages, tests/message_type.rs:156-199 *)
Definition header_of (v : option json) : option jwm_header :=
  match as_text v with
  | Some s => match b64_decode s with
              | Some t => match parse t with Some j => de_jwm (rt test_env 0) false j | None => None end
              | None => None
              end
  | None => None
  end.
Example inner_type : on (sign (set_kid (as_jws base EdDsa) (hex_encode alice)) (signer test_env EdDsa) alice)
  (fun text => match as_list (field "signatures" (value text)) with
     | Some (s :: _) => option_map jh_typ (header_of (field "protected" (Some s))) = Some DidCommJws
     | _ => False
     end /\ option_map jh_typ (header_of (field "payload" (value text))) = Some DidCommRaw /\
     on (receive test_env text None None None) (fun m => jh_typ (m_jwm m) = DidCommRaw) False) False.
Proof. vm_compute. repeat split; reflexivity. Qed.
(** Test serializes_missing_body_as_empty_object, tests/message_type.rs:202-215 *)
Example missing_body : option_map print (field "body" (value (message_json base))) = Some "{}".
Proof. vm_compute. reflexivity. Qed.
(** Test serializes_existing_body_as_object, tests/message_type.rs:217-234 *)
Example existing_body : on (set_body (rt test_env 0) base foo_bar) (fun m => option_map print (field "body" (value (message_json m))) = Some foo_bar) False.
Proof. vm_compute. reflexivity. Qed.

(** ** tests/out_of_band.rs *)

(** Test sets_m_type_correctly_for_out_of_band_invitation_message, tests/out_of_band.rs:4-27 *)
Example invitation_type : on (out_of_band_invitation (rt test_env 0) (message_new uuid) "{}" None)
  (fun m => as_text (field "type" (value (as_raw_json m))) = Some "https://didcomm.org/out-of-band/2.0/invitation") False.
Proof. vm_compute. reflexivity. Qed.

(** ** tests/shape.rs *)

(** Test shape_desired_test, tests/shape.rs:20-39: a body is read back as the two members written. *)
Example shape_desired_test : on (set_body (rt test_env 0) (message_new uuid) "{""num_field"":42,""string_field"":""important data""}")
  (fun m => field "num_field" (value (get_body m)) = Some (JNum "42") /\ as_text (field "string_field" (value (get_body m))) = Some "important data") False.
Proof. vm_compute. split; reflexivity. Qed.

(** ** tests/jws_envelopes.rs *)

Definition signable : message := set_kid base (hex_encode alice).
(** Tests can_create_flattened_jws_json and can_receive_flattened_jws_json, tests/jws_envelopes.rs:15-31, 51-75 *)
Example flattened_jws : on (sign (as_flat_jws signable EdDsa) (signer test_env EdDsa) alice)
  (fun text => as_text (field "signature" (value text)) <> None /\ as_list (field "signatures" (value text)) = None /\
     is_ok (verify test_env (rt test_env 0) (rt test_env 1) text alice) = true /\
     is_ok (receive test_env text (Some "") (Some alice) None) = true) False.
Proof. vm_compute. repeat split; first [reflexivity | discriminate]. Qed.
(** Tests can_create_general_jws_json and can_receive_general_jws_json, tests/jws_envelopes.rs:33-49, 77-102 *)
Example general_jws : on (sign (as_jws signable EdDsa) (signer test_env EdDsa) alice)
  (fun text => as_text (field "signature" (value text)) = None /\ as_list (field "signatures" (value text)) <> None /\
     is_ok (verify test_env (rt test_env 0) (rt test_env 1) text alice) = true /\
     is_ok (receive test_env text (Some "") (Some alice) None) = true) False.
Proof. vm_compute. repeat split; first [reflexivity | discriminate]. Qed.

(** ** tests/jwe_envelopes.rs *)

(** Tests can_create_flat_jwe_json and can_receive_flat_jwe_json, tests/jwe_envelopes.rs:14-92 *)
Example flat_jwe : on (let? m := set_body (rt test_env 0) base foo_bar in
    seal_signed test_env test_rand (set_kid (flat m) (hex_encode alice)) alice (Some [Some bob]) EdDsa alice)
  (fun text => as_list (field "recipients" (value text)) = None /\ as_text (field "encrypted_key" (value text)) <> None /\
     match field "header" (value text) with Some (JObj _) => True | _ => False end /\
     body_of (receive test_env text (Some bob) (Some alice) None) = foo_bar) False.
Proof. vm_compute. repeat split; first [reflexivity | discriminate]. Qed.

(** ** tests/send_receive.rs *)

(** Test send_receive_raw, tests/send_receive.rs:15-40: sealing without a chosen cipher fails, the plain text is
    received as the message that was sent. *)
Definition test_did : string := "{
        ""@context"": ""https://www.w3.org/ns/did/v1"",
        ""id"": ""did:jun:ErJ3ahRB-zmOvTp0QmcJQfLq3hCAHBpXmoYLeHK8fHhw"",
        ""verificationMethod"": [
            {
                ""id"": ""#DDMt6ythjG9pyuKcyFYHPC62gw6KjL8EdouCuNRm0GbU"",
                ""type"": ""Ed25519VerificationKey2018"",
                ""controller"": ""did:jun:ErJ3ahRB-zmOvTp0QmcJQfLq3hCAHBpXmoYLeHK8fHhw"",
                ""publicKeyBase64"": ""DMt6ythjG9pyuKcyFYHPC62gw6KjL8EdouCuNRm0GbU=""
            }
        ]
    }".
Example send_receive_raw :
  on (set_body (rt test_env 0) (set_to (set_from (message_new uuid) "did:xyz:ulapcuhsatnpuhza930hpu34n_")
        ["did::xyz:34r3cu403hnth03r49g03"; "did:xyz:30489jnutnjqhiu0uh540u8hunoe"]) test_did)
     (fun m => is_err (seal test_env test_rand m "anuhcphus" None) = true /\ receive test_env (as_raw_json m) None None None = Ok m) False.
Proof. vm_compute. split; reflexivity. Qed.
(** Test send_receive_encrypted_xc20p_json_test, tests/send_receive.rs:42-93, with a shorter body *)
Example send_receive_encrypted_xc20p_json_test :
  on (let? m := set_body (rt test_env 0) (set_to (set_from (message_new uuid) did_alice) [did_alice; did_bob]) foo_bar in
      let m := set_kid (add_header_field (add_header_field (xc m) "my_custom_key" "my_custom_value") "another_key" "another_value")
                 "#z6LShs9GGnqk85isEBzzshkuVWrVKsRp24GnDuHk8QWkARMW" in
      seal test_env test_rand m alice (Some [Some bob; Some mediator]))
     (fun text => body_of (receive test_env text (Some bob) (Some alice) None) = foo_bar) False.
Proof. vm_compute. reflexivity. Qed.
(** Test send_receive_signed_json_test, tests/send_receive.rs:95-126, with a shorter body *)
Example send_receive_signed_json_test :
  on (let? m := set_body (rt test_env 0) base foo_bar in sign (as_jws m EdDsa) (signer test_env EdDsa) alice)
     (fun text => body_of (verify test_env (rt test_env 0) (rt test_env 1) text alice) = foo_bar) False.
Proof. vm_compute. reflexivity. Qed.
(** Test send_receive_direct_signed_and_encrypted_xc20p_test, tests/send_receive.rs:128-170, with a shorter body *)
Example send_receive_direct_signed_and_encrypted_xc20p_test :
  is_ok (let? m := set_body (rt test_env 0) (set_to base [did_mediator]) foo_bar in
    seal_signed test_env test_rand
      (set_kid (add_header_field (add_header_field (xc m) "my_custom_key" "my_custom_value") "another_key" "another_value") (hex_encode alice))
      alice (Some [Some bob; Some mediator]) EdDsa alice) = true.
Proof. vm_compute. reflexivity. Qed.
(** Test send_receive_mediated_encrypted_xc20p_json_test, tests/send_receive.rs:172-223, with a shorter body *)
Example send_receive_mediated_encrypted_xc20p_json_test :
  body_of (let? m := set_body (rt test_env 0) base foo_bar in
    let? text := routed_by test_env test_rand test_rand uuid
      (add_header_field (add_header_field (xc m) "my_custom_key" "my_custom_value") "another_key" "another_value")
      alice (Some [Some bob]) did_mediator (Some mediator) in
    let? inner := forwarded text (Some alice) in receive test_env inner (Some bob) (Some alice) None) = foo_bar.
Proof. vm_compute. reflexivity. Qed.
