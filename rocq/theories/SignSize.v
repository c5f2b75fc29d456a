(** How long signed envelopes are, and that signing and then sealing with the ciphers of the crate succeeds. Used by C70. *)

From Coq Require Import Ascii String Arith NArith List Bool Lia.
From Verif Require Import Bytes BytesFacts Base64 Utf8 Json Value Types Serde SerdeFacts Message Attach ChaCha Sha256 Aead Envelope Spec SpecFacts SpecText CryptoLaws
  SpecSign HeaderFacts SignFacts SpecSeal SealFacts SealFacts2 SealFacts3 RouteFacts AeadFacts AeadFacts2.
Import ListNotations.
Local Open Scope nat_scope.
Local Open Scope string_scope.

Lemma typ_member : forall t, 7 <= member_size ("typ", jstr (message_type_name t)) <= 400.
Proof.
  intros t. split; [unfold member_size; cbn [fst snd]; pose proof (quote_size "typ"); cbn [String.length] in *; lia|].
  pose proof (text_member_le "typ" _ _ (type_name_size t)) as G. cbn [String.length] in G. lia.
Qed.
Lemma with_header_size : forall m h n, list_sum (map member_size (jwm_entries h)) <= list_sum (map member_size (jwm_entries (m_jwm m))) + n ->
  String.length (message_json (with_jwm m h)) <= String.length (message_json m) + n.
Proof. intros m h n H. rewrite !message_size. cbn [with_jwm m_jwm m_did m_recipients m_body m_attachments]. lia. Qed.
Lemma payload_size : forall m a, String.length (sign_payload (as_jws m a)) <= 2 * String.length (message_json m) + 800.
Proof.
  intros m a. unfold sign_payload. pose proof (b64_size (message_json (with_jwm (as_jws m a) jwm_default))) as HB.
  assert (HP : String.length (message_json (with_jwm m jwm_default)) <= String.length (message_json m) + 400).
  { apply with_header_size. unfold jwm_entries, jwm_default. cbn [jh_typ jh_enc jh_kid jh_skid jh_alg jh_jku jh_jwk jh_epk jh_cty sopt]. rewrite !sum_app, !sum_cons, !sum_nil.
    pose proof (typ_member DidCommRaw). pose proof (typ_member (jh_typ (m_jwm m))). lia. }
  change (with_jwm (as_jws m a) jwm_default) with (with_jwm m jwm_default) in HB |- *. lia.
Qed.
Lemma signed_header_size : forall m a, String.length (header_b64 (sign_header (as_jws m a))) <= 2 * String.length (message_json m) + 1000.
Proof.
  intros m a. unfold header_b64. pose proof (b64_size (print (ser_jwm (sign_header (as_jws m a))))) as HB.
  assert (HP : String.length (print (ser_jwm (sign_header (as_jws m a)))) <= String.length (message_json m) + 500); [|lia].
  rewrite message_size. unfold ser_jwm. rewrite obj_size by (unfold jwm_entries; discriminate). unfold jwm_entries.
  unfold sign_header, as_jws, as_signed, jh_with_alg, jh_with_typ.
  cbn [with_jwm m_jwm jh_typ jh_enc jh_kid jh_skid jh_alg jh_jku jh_jwk jh_epk jh_cty]. rewrite !sum_app.
  assert (HA : list_sum (map member_size (sopt "alg" jstr (Some (sig_alg_name a)))) <= 90).
  { cbn [sopt]. rewrite sum_cons, sum_nil. assert (HN : String.length (sig_alg_name a) <= 10) by (destruct a; cbn; lia). pose proof (text_member_le "alg" _ _ HN) as G. cbn [String.length] in G. lia. }
  remember (list_sum (map member_size (sopt "alg" jstr (Some (sig_alg_name a))))) as al eqn:EA. clear EA.
  rewrite !sum_cons, !sum_nil. pose proof (typ_member DidCommJws). pose proof (typ_member (jh_typ (m_jwm m))). lia.
Qed.
Lemma signed_tree_size : forall m a s, String.length s <= 200 ->
  String.length (print (jws_tree (as_jws m a) s)) <= (List.length (dh_to (m_did m)) + 2) * (12 * String.length (message_json m) + 3 * 3000).
Proof.
  intros m a s HS. pose proof (text_member_le "payload" _ _ (payload_size m a)) as H1. pose proof (text_member_le "protected" _ _ (signed_header_size m a)) as H2.
  assert (HB : String.length (b64_encode s) <= 400) by (pose proof (b64_size s); lia). pose proof (text_member_le "signature" _ _ HB) as H3. cbn [String.length] in H1, H2, H3.
  set (M := String.length (message_json m)) in *. clearbody M. unfold jws_tree. change (m_flat_jws (as_jws m a)) with (m_flat_jws m). change (dh_to (m_did (as_jws m a))) with (dh_to (m_did m)).
  assert (HE : list_sum (map member_size (entry_json (as_jws m a) s)) <= 12 * M + 3 * 2900) by (unfold entry_json; rewrite !sum_cons, sum_nil; lia).
  destruct (m_flat_jws m).
  - rewrite obj_size by discriminate. rewrite sum_cons. nia.
  - rewrite obj_size by discriminate. rewrite !sum_cons, sum_nil.
    assert (HA : String.length (print (JArr (map (fun _ => JObj (entry_json (as_jws m a) s)) (dh_to (m_did m))))) <= List.length (dh_to (m_did m)) * (12 * M + 3 * 2950) + 2).
    { destruct (dh_to (m_did m)) as [|d l] eqn:ET; [cbn [map]; change (String.length (print (JArr []))) with 2; lia|]. rewrite arr_size by discriminate. rewrite map_map. rewrite <- ET. clear ET d l.
      assert (HO : String.length (print (JObj (entry_json (as_jws m a) s))) <= 12 * M + 3 * 2900 + 1) by (rewrite obj_size by discriminate; lia).
      generalize (dh_to (m_did m)). intros l. apply Nat.le_trans with (List.length l * (12 * M + 3 * 2950) + 1); [|lia]. apply Nat.add_le_mono_r.
      induction l as [|x l IH]; [cbn; lia|]. cbn [map list_sum fold_right List.length] in *. unfold list_sum in IH. nia. }
    apply (member_le "signatures") in HA. cbn [String.length] in HA. nia.
Qed.
Lemma seal_signed_real : forall E rnd m sk keys a sa ssk, dh_ok E -> rand_ok rnd -> usable a ->
  jh_alg (m_jwm m) = Some (wrap_name a) -> String.length sk = 32 -> dh_to (m_did m) <> [] ->
  (m_flat_jwe m = true -> List.length (dh_to (m_did m)) = 1) -> (forall l, keys = Some l -> List.length l = List.length (dh_to (m_did m))) ->
  (forall k dest, nth_error (dh_to (m_did m)) k = Some dest -> exists key, known_key E dest (given_key keys k) key /\ 32 <= String.length key) ->
  (forall msg, exists s, sig_sign E sa ssk msg = Some s /\ String.length s <= 200) ->
  (N.of_nat (List.length (dh_to (m_did m)) + 2) * (len64 (message_json m) + 1000) <= 2 ^ 22)%N ->
  exists text, seal_signed (ciphers E) rnd m sk keys sa ssk = Ok text.
Proof.
  intros E rnd m sk keys a sa ssk HD HR HU HA HL HTo HF HKL HK HSi HZ. destruct (HSi (sign_input (as_jws m sa))) as [s [ES HS]].
  rewrite (seal_signed_seals (ciphers E) _ _ _ _ _ _ _ ES). apply (real_seal_total E rnd _ sk keys a); auto.
  assert (HM : String.length (message_json (set_typ (with_body m (jws_tree (as_jws m sa) s)) DidCommJws)) <=
    String.length (message_json m) + String.length (print (jws_tree (as_jws m sa) s)) + 500).
  { rewrite !message_size. cbn [set_typ with_body with_jwm m_jwm m_did m_recipients m_body m_attachments].
    assert (HB : member_size ("body", jws_tree (as_jws m sa) s) <= String.length (print (jws_tree (as_jws m sa) s)) + 28) by (pose proof (member_le "body" _ _ (Nat.le_refl (String.length (print (jws_tree (as_jws m sa) s))))) as G; cbn [String.length] in G; lia).
    unfold jwm_entries, jh_with_typ. cbn [jh_typ jh_enc jh_kid jh_skid jh_alg jh_jku jh_jwk jh_epk jh_cty].
    rewrite !sum_app, !sum_cons, !sum_nil. pose proof (typ_member DidCommJws). pose proof (typ_member (jh_typ (m_jwm m))). lia. }
  pose proof (signed_tree_size m sa s HS) as HT. unfold len64 in *. change (2 ^ 26)%N with 67108864%N. change (2 ^ 22)%N with 4194304%N in HZ.
  set (M := String.length (message_json m)) in *. set (n := List.length (dh_to (m_did m)) + 2) in *.
  assert (H2 : 2 <= n) by (unfold n; lia). clearbody M n. remember (n * M) as q eqn:EQ. assert (HQ : M <= q) by nia.
  assert (HN : (N.of_nat q + 1000 * N.of_nat n <= 4194304)%N) by (subst q; nia). assert (HW : n * (12 * M + 3 * 3000) = 12 * q + 9 * (1000 * n)) by (subst q; nia). lia.
Qed.
