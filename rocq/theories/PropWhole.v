(** Mediated delivery with the key agreement and the ciphers of the crate: C72. *)

From Coq Require Import Ascii String Arith ZArith NArith List Bool Permutation Sorted Lia.
From Verif Require Import Bytes BytesFacts Base64 Base64Facts Utf8 Utf8Facts Json JsonFacts Value ValueFacts Types Serde SerdeFacts
  Message Attach ChaCha Sha256 Aead Envelope Spec SpecFacts DecodeFacts PlainFacts CodecFacts SetterFacts SpecText CryptoLaws Examples PropPlain
  SpecSign HeaderFacts SignFacts SignFacts2 PropSign SpecSeal SealFacts SealFacts2 SealFacts3 PropSeal SpecRoute RouteFacts PropRoute KeyFacts PropKey AeadFacts AeadFacts2 SignSize
  PropAead Float PropFloat SpecEnv SameFacts3 Curve CurveFacts PropCurve.
Import ListNotations.
Local Open Scope nat_scope.
Local Open Scope string_scope.

(** ** Sizes *)

Lemma code_size : forall c, String.length (print (jnat (code c))) <= 3.
Proof. intros [[] [] [] [] [] [] [] []]; vm_compute; lia. Qed.
Lemma bytes_size : forall s, list_sum (map (fun v => String.length (print v) + 1) (bytes_json s)) <= 4 * String.length s.
Proof.
  induction s as [|c s IH]; [cbn; lia|]. change (bytes_json (String c s)) with (jnat (code c) :: bytes_json s). rewrite map_cons. unfold list_sum in *.
  pose proof (code_size c) as H. revert H. generalize (jnat (code c)). intros j H. cbn [fold_right String.length]. lia.
Qed.
Lemma payload_list_size : forall s, String.length (print (JArr (bytes_json s))) <= 4 * String.length s + 2.
Proof.
  intros [|c s]; [cbn; lia|]. rewrite arr_size by discriminate. pose proof (bytes_size (String c s)). lia.
Qed.
Lemma mediated_size : forall next inner, String.length (print (ser_mediated {| md_next := next; md_payload := inner |})) <= 6 * String.length next + 4 * String.length inner + 140.
Proof.
  intros next inner. unfold ser_mediated. cbn [md_next md_payload]. rewrite obj_size by discriminate. rewrite !sum_cons, sum_nil.
  pose proof (text_member_le "next" _ _ (Nat.le_refl (String.length next))) as H1. pose proof (member_le "payloads~attach" _ _ (payload_list_size inner)) as H2. cbn [String.length] in H1, H2. lia.
Qed.
(** Key ids in DID documents have at most 65536 bytes. *)
Definition short_ids (E : env) : Prop := forall did doc crv id, resolve E did = Some doc -> doc_key_id doc crv = Some id -> (len64 id <= 2 ^ 16)%N.
Definition given_size (key : option string) : nat := match key with Some k => String.length k | None => 0 end.
Lemma shell_header_size : forall E uuid from a mediator key, short_ids E ->
  list_sum (map member_size (jwm_entries (m_jwm (outer_shell E uuid from a mediator key)))) <= 12 * given_size key + 6 * (2 * (2 * (128 * 128))) + 1000.
Proof.
  intros E uuid from a mediator key HI.
  assert (HH : exists enc alg kid, m_jwm (outer_shell E uuid from a mediator key) = jh_with_typ (jh_with_kid (jh_with_enc (jh_with_alg jwm_default alg) enc) kid) DidCommForward /\
     (exists x, enc = Some x /\ String.length x <= 16) /\ (exists x, alg = Some x /\ String.length x <= 16) /\
     (forall k, kid = Some k -> String.length k <= 2 * given_size key + 2 * (2 * (128 * 128)))).
  { unfold outer_shell, as_jwe. rewrite set_to_filter. destruct key as [k|].
    - exists (jh_enc (as_encrypted jwm_default a)), (jh_alg (as_encrypted jwm_default a)), (Some (b64_encode k)). split; [destruct a; reflexivity|].
      split; [destruct a; eexists; (split; [reflexivity|cbn; lia])|]. split; [destruct a; eexists; (split; [reflexivity|cbn; lia])|].
      intros k' H. apply some_inj in H. subst k'. cbn [given_size]. pose proof (b64_size k). lia.
    - cbn [set_from with_did m_did dh_from dh_with_from]. destruct (resolve E from) as [doc|] eqn:ER.
      + exists (jh_enc (as_encrypted jwm_default a)), (jh_alg (as_encrypted jwm_default a)), (doc_key_id doc (match a with XC20P => "X25519" | _ => "P-256" end)). split; [destruct a; reflexivity|].
        split; [destruct a; eexists; (split; [reflexivity|cbn; lia])|]. split; [destruct a; eexists; (split; [reflexivity|cbn; lia])|].
        intros k' H. pose proof (HI _ _ _ _ ER H) as G. unfold len64 in G. change (2 ^ 16)%N with 65536%N in G. lia.
      + exists (jh_enc (as_encrypted jwm_default a)), (jh_alg (as_encrypted jwm_default a)), None. split; [destruct a; reflexivity|].
        split; [destruct a; eexists; (split; [reflexivity|cbn; lia])|]. split; [destruct a; eexists; (split; [reflexivity|cbn; lia])|]. discriminate. }
  destruct HH as [enc [alg [kid [-> [[e [-> LE]] [[al [-> LA]] HK]]]]]].
  unfold jwm_entries, jh_with_typ, jh_with_kid, jh_with_enc, jh_with_alg, jwm_default. cbn [jh_typ jh_enc jh_kid jh_skid jh_alg jh_jku jh_jwk jh_epk jh_cty sopt].
  rewrite !sum_app, !sum_cons, !sum_nil. pose proof (typ_member DidCommForward) as H1.
  pose proof (text_member_le "enc" _ _ LE) as H2. pose proof (text_member_le "alg" _ _ LA) as H3. cbn [String.length] in H2, H3.
  assert (H4 : list_sum (map member_size (sopt "kid" jstr kid)) <= 12 * given_size key + 6 * (2 * (2 * (128 * 128))) + 24).
  { destruct kid as [k|]; cbn [sopt]; [|rewrite sum_nil; lia]. rewrite sum_cons, sum_nil. pose proof (text_member_le "kid" _ _ (HK k eq_refl)) as G. cbn [String.length] in G. lia. }
  revert H1 H2 H3 H4. generalize (member_size ("typ", jstr (message_type_name DidCommForward))) (member_size ("enc", jstr e)) (member_size ("alg", jstr al)) (list_sum (map member_size (sopt "kid" jstr kid))). intros. lia.
Qed.
Lemma shell_did_size : forall uuid from mediator, list_sum (map member_size (didcomm_entries (dh_with_from (dh_with_to (didcomm_new uuid) [mediator]) (Some from)))) <=
  6 * (String.length uuid + String.length from + String.length mediator) + 200.
Proof.
  intros uuid from mediator. unfold didcomm_entries, dh_with_from, dh_with_to, didcomm_new. cbn [dh_id dh_thid dh_pthid dh_type dh_to dh_from dh_created dh_expires dh_from_prior dh_thread dh_other sopt svec snull smap map].
  rewrite !sum_app, !sum_cons, !sum_nil.
  pose proof (text_member_le "id" _ _ (Nat.le_refl (String.length uuid))) as H1. pose proof (text_member_le "from" _ _ (Nat.le_refl (String.length from))) as H2.
  assert (HA : String.length (print (JArr [jstr mediator])) <= 6 * String.length mediator + 4).
  { rewrite arr_size by discriminate. pose proof (jstr_size mediator) as G. revert G. generalize (jstr mediator). intros j G. cbn [map list_sum fold_right]. lia. }
  pose proof (member_le "to" _ _ HA) as H3. cbn [String.length] in H1, H2, H3. 
  assert (H4 : member_size ("type", jstr "JWM") <= 50) by (vm_compute; lia).
  revert H1 H2 H3 H4. generalize (member_size ("id", jstr uuid)) (member_size ("from", jstr from)) (member_size ("to", JArr [jstr mediator])) (member_size ("type", jstr "JWM")). intros. lia.
Qed.
Lemma outer_size : forall E uuid from a mediator key next inner, short_ids E -> mediator <> "" ->
  String.length (message_json (with_body (outer_shell E uuid from a mediator key) (ser_mediated {| md_next := next; md_payload := inner |}))) <=
  12 * (String.length inner + String.length next + String.length from + String.length uuid + String.length mediator + given_size key) + 3 * (3 * (3 * (128 * 128))).
Proof.
  intros E uuid from a mediator key next inner HI HM.
  pose proof (shell_header_size E uuid from a mediator key HI) as H1. pose proof (outer_shell_did E uuid from a mediator key) as HD.
  assert (HFil : filter non_empty [mediator] = [mediator]) by (cbn; unfold non_empty; destruct (String.eqb_spec mediator ""); [contradiction|reflexivity]). rewrite HFil in HD.
  destruct (outer_shell_rest E uuid from a mediator key) as [R1 [_ [_ [R4 _]]]].
  revert H1 HD R1 R4. generalize (outer_shell E uuid from a mediator key). intros o H1 HD R1 R4.
  rewrite message_size. cbn [with_body m_jwm m_did m_recipients m_body m_attachments]. rewrite R1, R4, HD. cbn [sopt svec]. rewrite !sum_nil.
  pose proof (shell_did_size uuid from mediator) as H2. pose proof (member_le "body" _ _ (mediated_size next inner)) as H3. cbn [String.length] in H3.
  revert H2 H3. generalize (member_size ("body", ser_mediated {| md_next := next; md_payload := inner |})).
  generalize (list_sum (map member_size (didcomm_entries (dh_with_from (dh_with_to (didcomm_new uuid) [mediator]) (Some from))))). intros. lia.
Qed.

(** What [seal] returns. *)
Lemma escape_plain : forall s, needs_escape s = false -> escape s = s.
Proof.
  induction s as [|c s IH]; intros H; [reflexivity|]. cbn [needs_escape] in H. apply orb_false_iff in H. destruct H as [H1 H2]. cbn [escape]. rewrite (IH H2).
  revert H1. destruct c as [[] [] [] [] [] [] [] []]; vm_compute; intros H1; first [discriminate|reflexivity].
Qed.
Lemma b64_print_size : forall s, String.length (print (jstr (b64_encode s))) = String.length (b64_encode s) + 2.
Proof. intros s. unfold jstr. cbn [print]. unfold quote. rewrite escape_plain by apply b64_no_escape. cbn [String.length]. rewrite slen_app. cbn [String.length]. lia. Qed.
Lemma header_size_small : forall m, String.length (header_b64 (seal_header m)) <= 2 * (String.length (message_json m) + 420).
Proof.
  intros m. unfold header_b64. pose proof (b64_size (print (ser_jwm (seal_header m)))) as HB.
  assert (HP : String.length (print (ser_jwm (seal_header m))) <= String.length (message_json m) + 420); [|lia]. clear HB.
  rewrite message_size. unfold ser_jwm. rewrite obj_size by (unfold jwm_entries; discriminate). unfold jwm_entries. rewrite !sum_app, !sum_cons, !sum_nil.
  pose proof (typ_member (jh_typ (seal_header m))) as HT.
  assert (HF : list_sum (map member_size (sopt "skid" jstr (jh_skid (seal_header m)))) <= list_sum (map member_size (didcomm_entries (m_did m)))).
  { rewrite seal_header_skid. unfold didcomm_entries. rewrite !sum_app. rewrite !sum_cons, !sum_nil. destruct (dh_from (m_did m)) as [f|]; cbn [sopt snull]; [|rewrite sum_nil; lia]. rewrite sum_cons, sum_nil.
    assert (HQ : member_size ("skid", jstr f) = member_size ("from", jstr f)) by (unfold member_size; cbn [fst snd]; reflexivity). lia. }
  assert (HE : jh_enc (seal_header m) = jh_enc (m_jwm m) /\ jh_kid (seal_header m) = jh_kid (m_jwm m) /\ jh_alg (seal_header m) = jh_alg (m_jwm m) /\ jh_jku (seal_header m) = jh_jku (m_jwm m) /\
    jh_jwk (seal_header m) = jh_jwk (m_jwm m) /\ jh_epk (seal_header m) = jh_epk (m_jwm m) /\ jh_cty (seal_header m) = jh_cty (m_jwm m)) by (unfold seal_header; destruct (jh_typ (m_jwm m)); repeat split).
  destruct HE as [-> [-> [-> [-> [-> [-> ->]]]]]]. lia.
Qed.
Lemma xc_same : same_size xc20p_enc.
Proof. intros k n a p c H. apply xc_round in H. apply H. Qed.
Lemma gcm_same : same_size aesgcm_enc.
Proof. intros k n a p c H. apply gcm_round in H. apply H. Qed.
Lemma plain_member : forall k s, member_size (k, jstr (b64_encode s)) = String.length (quote k) + String.length (b64_encode s) + 4.
Proof. intros k s. unfold member_size. cbn [fst snd]. rewrite b64_print_size. lia. Qed.
Lemma seal_text_size : forall E rnd m sk keys text, rand_ok rnd -> seal (whole E) rnd m sk keys = Ok text ->
  String.length text <= 22 * String.length (message_json m) + 3 * 3000 * List.length (dh_to (m_did m)) + 2000.
Proof.
  intros E rnd m sk keys text HR H. pose proof (co_dh _ (ciphers_ok _ (whole_dh E))) as HDH. change (ciphers (real (curve E))) with (whole E) in HDH.
  apply seal_text in H. destruct H as [a [rs [sh [c [HU [HA [HL [HN [HP [_ [_ [HC [HL16 ->]]]]]]]]]]]]].
  assert (HRS : list_sum (map (fun r => String.length (print (ser_recipient r)) + 1) rs) <= 6 * String.length (message_json m) + 2901 * List.length (dh_to (m_did m))).
  { assert (HS : list_sum (map (fun r => String.length (print (ser_recipient r)) + 1) rs) <= list_sum (map (fun d => 6 * (String.length d + 3) + 2901) (dh_to (m_did m)))).
    { apply sum_pair; [exact HL|]. intros k d Hd. destruct (HN k d Hd) as [r [H1 H2]]. exists r. split; [exact H1|].
      apply encrypt_cek_ok in H2. destruct H2 as [a' [key [c' [U1 [U2 [U3 [U4 [U5 [U6 [U7 [HW [HLc ->]]]]]]]]]]]]. apply (wrap_size (real (curve E))) in HW. rewrite seal_cek_length in HW.
      assert (G : String.length (print (ser_recipient (cek_recipient (whole E) (sr_rec rnd k) d (wrap_ka a') (rr_iv (sr_rec rnd k) (wrap_len a')) (take (String.length c' - 16) c') (drop (String.length c' - 16) c')))) <= 6 * String.length d + 2900); [|lia].
      apply entry_size.
      - apply (dh_len _ HDH). exact (ra_secret rnd HR k).
      - rewrite U7. destruct a'; cbn; lia.
      - pose proof (take_size (String.length c' - 16) c'). lia.
      - pose proof (drop_size (String.length c' - 16) c'). lia. }
    assert (HM : forall l, list_sum (map (fun d => 6 * (String.length d + 3) + 2901) l) = 6 * list_sum (map (fun d => String.length d + 3) l) + 2901 * List.length l).
    { induction l as [|d l IH]; [reflexivity|]. cbn [map list_sum fold_right List.length] in *. unfold list_sum in IH. rewrite IH. unfold list_sum. lia. }
    rewrite HM in HS. pose proof (to_size m). lia. }
  clear HN. set (N := List.length (dh_to (m_did m))) in *. set (M := String.length (message_json m)) in *.
  assert (HAr : String.length (print (JArr (map ser_recipient rs))) <= 6 * M + 2901 * N + 2).
  { destruct rs as [|r rs]; [cbn; lia|]. rewrite arr_size by discriminate. rewrite map_map. lia. }
  pose proof (member_le "recipients" _ _ HAr) as HMe. cbn [String.length] in HMe.
  assert (HSz : String.length (message_json (with_recipients m (Some rs))) <= M + 6 * M + 2901 * N + 70).
  { subst M. rewrite message_size. cbn [with_recipients m_jwm m_did m_recipients m_body m_attachments sopt]. rewrite sum_cons, sum_nil. rewrite (message_size m) in HMe |- *. lia. }
  assert (HCl : String.length c = String.length (message_json (with_recipients m (Some rs))) + 16).
  { revert HC. apply encryptor_size; [| |exact HU]; [exact xc_same|exact gcm_same]. }
  assert (HH : String.length (header_b64 (seal_header m)) <= 2 * (M + 420)) by apply header_size_small.
  clear HC.
  assert (HFl : list_sum (map member_size (match fst sh with Some r => recipient_entries r | None => [] end)) + list_sum (map member_size (sopt "recipients" (fun l => JArr (map ser_recipient l)) (snd sh))) <= 6 * M + 2901 * N + 70).
  { destruct HP as [->|[r [-> ->]]]; cbn [fst snd sopt]; rewrite ?sum_cons, ?sum_nil; [lia|].
    unfold ser_recipient in HRS. cbn [map list_sum fold_right] in HRS. rewrite obj_size in HRS by discriminate. lia. }
  unfold jwe_json, ser_jwe, sealed_env.
  cbn [je_protected je_unprotected je_recipient je_recipients je_ciphertext je_iv je_tag sopt].
  match goal with |- String.length (print (JObj ?l)) <= _ => assert (HNE : l <> []) by discriminate; rewrite (obj_size l HNE); clear HNE end.
  rewrite !sum_app, !sum_cons, !sum_nil.
  assert (P1 : member_size ("protected", jstr (header_b64 (seal_header m))) <= 2 * (M + 420) + 70).
  { unfold header_b64 in *. rewrite plain_member. pose proof (quote_size "protected") as G. cbn [String.length] in G. lia. }
  assert (P2 : member_size ("ciphertext", jstr (b64_encode (take (String.length c - 16) c))) <= 2 * (7 * M + 2901 * N + 86) + 70).
  { rewrite plain_member. pose proof (quote_size "ciphertext") as G. cbn [String.length] in G. pose proof (b64_size (take (String.length c - 16) c)). pose proof (take_size (String.length c - 16) c). lia. }
  assert (P3 : member_size ("iv", jstr (b64_encode (sr_iv rnd))) <= 70).
  { rewrite plain_member. pose proof (quote_size "iv") as G. cbn [String.length] in G. pose proof (b64_size (sr_iv rnd)). pose proof (ra_iv rnd HR). lia. }
  assert (P4 : member_size ("tag", jstr (b64_encode (drop (String.length c - 16) c))) <= 70).
  { rewrite plain_member. pose proof (quote_size "tag") as G. cbn [String.length] in G. pose proof (b64_size (drop (String.length c - 16) c)).
    assert (String.length (drop (String.length c - 16) c) = 16) by (rewrite drop_length; lia). lia. }
  lia.
Qed.

Lemma from_size : forall m, String.length (or_empty (dh_from (m_did m))) <= String.length (message_json m).
Proof.
  intros m. rewrite message_size. unfold didcomm_entries. rewrite !sum_app, !sum_cons, !sum_nil.
  assert (HF : String.length (or_empty (dh_from (m_did m))) <= member_size ("from", snull jstr (dh_from (m_did m)))); [|lia].
  destruct (dh_from (m_did m)) as [f|]; [|cbn; lia]. cbn [snull or_empty]. unfold member_size. cbn [fst snd]. pose proof (quote_size f) as G. unfold jstr. cbn [print]. lia.
Qed.

(** ** C72 *)

(** The length of an envelope, in that of the message and the number of recipients. *)
Theorem C72_size : forall E rnd m sk keys text, rand_ok rnd -> seal (whole E) rnd m sk keys = Ok text ->
  (len64 text <= 22 * len64 (message_json m) + 9000 * N.of_nat (List.length (dh_to (m_did m))) + 2000)%N.
Proof. intros E rnd m sk keys text HR H. apply (seal_text_size E rnd m sk keys text HR) in H. unfold len64. lia. Qed.
(** The inner envelope can be made; if it and the other strings have less than 4 MiB, the outer one can, too. *)
Theorem C72_total : forall E rnd1 rnd2 uuid m sk keys alg a mediator mkey, rand_ok rnd1 -> rand_ok rnd2 -> short_ids E ->
  jh_alg (m_jwm m) = Some alg -> In (alg, a) wrap_table -> String.length sk = 32 -> dh_to (m_did m) <> [] ->
  (m_flat_jwe m = true -> List.length (dh_to (m_did m)) = 1) -> (forall l, keys = Some l -> List.length l = List.length (dh_to (m_did m))) ->
  (forall k dest, nth_error (dh_to (m_did m)) k = Some dest -> exists key, known_key E dest (given_key keys k) key /\ 32 <= String.length key) ->
  (len64 (message_json m) <= 2 ^ 26)%N -> mediator <> "" -> (exists key, known_key E mediator mkey key /\ 32 <= String.length key) ->
  exists inner, seal (whole E) rnd1 m sk keys = Ok inner /\
    ((len64 inner + len64 (or_empty (nth_error (dh_to (m_did m)) 0)) + len64 (or_empty (dh_from (m_did m))) + len64 uuid + len64 mediator + len64 (or_empty mkey) <= 2 ^ 22)%N ->
     exists text, routed_by (whole E) rnd1 rnd2 uuid m sk keys mediator mkey = Ok text).
Proof.
  intros E rnd1 rnd2 uuid m sk keys alg a mediator mkey HR1 HR2 HI HA HW HL HTo HF HKL HK HZ HM HMK.
  destruct (C69_seal_total E rnd1 m sk keys alg a HR1 HA HW HL HTo HF HKL HK HZ) as [inner HS].
  exists inner. split; [exact HS|]. intros HB. revert HS. remember (whole E) as W eqn:EW. intros HS. unfold routed_by.
  pose proof HW as HU. apply crypto_alg_of_table, crypto_alg_of_ok in HU. destruct HU as [HU EN].
  assert (EA : crypter_of (m_jwm m) = Ok a). { unfold crypter_of. rewrite HA. rewrite EN. now apply crypto_alg_of_ok. }
  rewrite EA. cbn [rbind]. unfold first_to. destruct (dh_to (m_did m)) as [|next rest] eqn:ET; [now elim HTo|]. cbn [rbind]. rewrite HS. cbn [rbind].
  unfold set_body. rewrite parse_print by (apply rust_value_wf, mediated_value). cbn [oerr rbind].
  rewrite (value_of_canon (rt W 0) max_depth); [|apply rust_canon; [apply mediated_value|apply mediated_stable]|].
  2:{ pose proof (mediated_depth (with_payload (mediated_new next) inner)). unfold max_depth. lia. }
  cbn [oerr rbind].
  change (set_typ (as_jwe (resolve W) (set_from (set_to (message_new uuid) [mediator]) (or_empty (dh_from (m_did m)))) a mkey) DidCommForward)
    with (outer_shell W uuid (or_empty (dh_from (m_did m))) a mediator mkey).
  change (with_payload (mediated_new next) inner) with {| md_next := next; md_payload := inner |}.
  revert HB. generalize (or_empty (dh_from (m_did m))). intros from HB. cbn [nth_error or_empty] in HB.
  assert (HIW : short_ids W) by (rewrite EW; exact HI).
  pose proof (outer_size W uuid from a mediator mkey next inner HIW HM) as HO.
  pose proof (outer_shell_did W uuid from a mediator mkey) as HD.
  assert (HFil : filter non_empty [mediator] = [mediator]) by (cbn; unfold non_empty; destruct (String.eqb_spec mediator ""); [contradiction|reflexivity]). rewrite HFil in HD.
  destruct (outer_shell_rest W uuid from a mediator mkey) as [_ [R2 [_ [_ [_ [_ [_ R8]]]]]]]. specialize (R8 HU).
  revert HO HD R2 R8. generalize (outer_shell W uuid from a mediator mkey). intros o HO HD R2 R8. clear HS. rewrite EW.
  apply (C69_seal_total E rnd2 _ sk (Some [mkey]) alg a HR2).
  - rewrite EN. exact R8.
  - exact HW.
  - exact HL.
  - cbn [with_body m_did]. rewrite HD. discriminate.
  - cbn [with_body m_flat_jwe]. rewrite R2. discriminate.
  - intros l Hl. apply some_inj in Hl. subst l. cbn [with_body m_did]. rewrite HD. reflexivity.
  - intros k dest Hk. cbn [with_body m_did] in Hk. rewrite HD in Hk. cbn [dh_with_from dh_with_to dh_to] in Hk. destruct k as [|k]; [|destruct k; discriminate].
    apply some_inj in Hk. subst dest. exact HMK.
  - assert (HG : given_size mkey = String.length (or_empty mkey)) by (destruct mkey; reflexivity). rewrite HG in HO. unfold len64 in *.
    change (2 ^ 26)%N with 67108864%N. change (2 ^ 22)%N with 4194304%N in HB. revert HO. generalize (String.length (message_json (with_body o (ser_mediated {| md_next := next; md_payload := inner |})))). intros n HO. lia.
Qed.
(** Up to 128 recipients and messages of up to 64 KiB, whatever they contain. *)
Theorem C72_total_message : forall E rnd1 rnd2 uuid m sk keys alg a mediator mkey, rand_ok rnd1 -> rand_ok rnd2 -> short_ids E ->
  jh_alg (m_jwm m) = Some alg -> In (alg, a) wrap_table -> String.length sk = 32 -> dh_to (m_did m) <> [] ->
  (m_flat_jwe m = true -> List.length (dh_to (m_did m)) = 1) -> (forall l, keys = Some l -> List.length l = List.length (dh_to (m_did m))) ->
  (forall k dest, nth_error (dh_to (m_did m)) k = Some dest -> exists key, known_key E dest (given_key keys k) key /\ 32 <= String.length key) ->
  (len64 (message_json m) <= 2 ^ 16)%N -> List.length (dh_to (m_did m)) <= 128 -> (len64 uuid + len64 mediator + len64 (or_empty mkey) <= 2 ^ 16)%N ->
  mediator <> "" -> (exists key, known_key E mediator mkey key /\ 32 <= String.length key) ->
  exists text, routed_by (whole E) rnd1 rnd2 uuid m sk keys mediator mkey = Ok text.
Proof.
  intros E rnd1 rnd2 uuid m sk keys alg a mediator mkey HR1 HR2 HI HA HW HL HTo HF HKL HK HZ HN HU HM HMK. change (2 ^ 16)%N with 65536%N in HZ, HU.
  destruct (C72_total E rnd1 rnd2 uuid m sk keys alg a mediator mkey) as [inner [HS HB]]; auto.
  { change (2 ^ 26)%N with 67108864%N. lia. }
  apply HB. clear HB. apply (C72_size E rnd1 m sk keys inner HR1) in HS.
  assert (H1 : (len64 (or_empty (nth_error (dh_to (m_did m)) 0)) <= len64 (message_json m))%N).
  { pose proof (to_size m) as G. destruct (dh_to (m_did m)) as [|d l]; [now elim HTo|]. cbn [nth_error or_empty map list_sum fold_right] in *. unfold len64. lia. }
  assert (H2 : (len64 (or_empty (dh_from (m_did m))) <= len64 (message_json m))%N) by (unfold len64; pose proof (from_size m); lia).
  change (2 ^ 22)%N with 4194304%N. lia.
Qed.
(** The mediator opens the outer envelope and finds the first recipient's identifier and the inner envelope, byte for byte. *)
Theorem C72_mediator : forall E rnd1 rnd2 uuid m sk keys mediator mkey text from msk sender signing,
  orders_ok E -> rand_ok rnd2 -> resolved_ids E ->
  rust_string uuid -> rust_string mediator -> Forall rust_string (dh_to (m_did m)) -> rust_string from -> dh_from (m_did m) = Some from ->
  routed_by (whole E) rnd1 rnd2 uuid m sk keys mediator mkey = Ok text -> String.length msk = 32 ->
  known_key E mediator mkey (x25519_base msk) -> known_key E from sender (x25519_base sk) ->
  exists f next rest inner, receive (whole E) text (Some msk) sender signing = Ok f /\
    dh_to (m_did m) = next :: rest /\ seal (whole E) rnd1 m sk keys = Ok inner /\
    forwards (m_body f) next inner /\ jh_typ (m_jwm f) = DidCommForward /\
    dh_to (m_did f) = [mediator] /\ dh_from (m_did f) = Some from /\ dh_id (m_did f) = uuid /\ m_attachments f = [].
Proof.
  intros E rnd1 rnd2 uuid m sk keys mediator mkey text from msk spk gpk HO HR HI U1 U2 U3 U4 HF HT L HK HSK. destruct (C69_lawful E HO) as [HE HC].
  destruct (C21_mediator (whole E) rnd1 rnd2 uuid m sk keys mediator mkey text from msk spk gpk HE HC HR HI U1 U2 U3 U4 HF HT L HK HSK)
    as [f [next [rest [inner [H1 [H2 [H3 [H4 [_ H5]]]]]]]]].
  exists f, next, rest, inner. split; [exact H1|]. split; [exact H2|]. split; [exact H3|]. split; [exact H4|exact H5].
Qed.
(** Every recipient receives what was sent from what the mediator extracted. *)
Theorem C72_recipient : forall E rnd1 rnd2 uuid m sk keys mediator mkey text from msk i dest rsk sender1 sender2 signing1 signing2,
  orders_ok E -> rand_ok rnd1 -> rand_ok rnd2 -> resolved_ids E -> rust_string uuid -> rust_string mediator ->
  sendable (whole E) m -> few_custom (m_jwm m) -> avoids envelope_names (dh_other (m_did m)) -> jh_typ (m_jwm m) <> DidCommJws -> dh_from (m_did m) = Some from ->
  routed_by (whole E) rnd1 rnd2 uuid m sk keys mediator mkey = Ok text ->
  String.length msk = 32 -> known_key E mediator mkey (x25519_base msk) -> known_key E from sender1 (x25519_base sk) ->
  nth_error (dh_to (m_did m)) i = Some dest -> String.length rsk = 32 ->
  known_key E dest (given_key keys i) (x25519_base rsk) -> known_key E from sender2 (x25519_base sk) -> i = 0 \/ others_closed (whole E) rnd1 m sk keys rsk i ->
  exists f next inner m', receive (whole E) text (Some msk) sender1 signing1 = Ok f /\ forwards (m_body f) next inner /\
    nth_error (dh_to (m_did m)) 0 = Some next /\
    receive (whole E) inner (Some rsk) sender2 signing2 = Ok m' /\ received m m'.
Proof.
  intros E rnd1 rnd2 uuid m sk keys mediator mkey text from msk i dest rsk spk1 spk2 gpk1 gpk2 HO HR1 HR2 HI U1 U2 HS HF HA HTy HFr HT L1 HK1 HSK1 HN L2 HK2 HSK2 HB.
  destruct (C69_lawful E HO) as [HE HC].
  assert (HB' : others_closed (whole E) rnd1 m sk keys rsk i) by (destruct HB as [->|HB]; [apply closed_first|exact HB]).
  exact (C21_recipient (whole E) rnd1 rnd2 uuid m sk keys mediator mkey text from msk i dest rsk spk1 spk2 gpk1 gpk2 HE HC HR1 HR2 HI U1 U2 HS HF HA HTy HFr HT L1 HK1 HSK1 HN L2 HK2 HSK2 HB').
Qed.

(** ** Cases *)

Lemma toy_short : short_ids toy.
Proof.
  intros did doc crv id H1 H2. cbn [resolve toy] in H1.
  assert (HD : exists k, doc = toy_doc k).
  { destruct (String.eqb did "did:toy:alice"); [apply some_inj in H1; eauto|]. destruct (String.eqb did "did:toy:bob"); [apply some_inj in H1; eauto|discriminate]. }
  destruct HD as [k ->]. cbn [toy_doc doc_key_id] in H2. destruct (String.eqb crv "X25519"); [|discriminate]. apply some_inj in H2. subst id. discriminate.
Qed.
Definition mediator_public : option string := Some (x25519_base mediator_key).
Example C72_example : forall a, In a [XC20P; A256GCM] -> exists text f inner m',
  routed_by (whole toy) ex_rand ex_rand "urn:2" (ex_jwe a) alice_key (Some ex_public) "did:toy:mediator" mediator_public = Ok text /\
  receive (whole toy) text (Some mediator_key) (Some (x25519_base alice_key)) None = Ok f /\ forwards (m_body f) "did:toy:bob" inner /\
  receive (whole toy) inner (Some bob_key) (Some (x25519_base alice_key)) None = Ok m' /\ received (ex_jwe a) m'.
Proof.
  intros a HA.
  assert (HT : exists text, routed_by (whole toy) ex_rand ex_rand "urn:2" (ex_jwe a) alice_key (Some ex_public) "did:toy:mediator" mediator_public = Ok text).
  { apply (C72_total_message toy ex_rand ex_rand "urn:2" (ex_jwe a) alice_key (Some ex_public) (wrap_name a) a).
    - exact ex_rand_ok.
    - exact ex_rand_ok.
    - exact toy_short.
    - destruct HA as [<-|[<-|[]]]; reflexivity.
    - apply crypto_alg_of_table, crypto_alg_of_ok. split; [|reflexivity]. intros ->. destruct HA as [H|[H|[]]]; discriminate.
    - apply srepeat_length.
    - destruct HA as [<-|[<-|[]]]; discriminate.
    - destruct HA as [<-|[<-|[]]]; discriminate.
    - intros l H. apply some_inj in H. subst l. destruct HA as [<-|[<-|[]]]; reflexivity.
    - intros [|[|k]] dest H.
      + exists (x25519_base bob_key). split; [now left|]. rewrite x25519_base_length. lia.
      + exists (x25519_base carol_key). split; [now left|]. rewrite x25519_base_length. lia.
      + exfalso. destruct HA as [<-|[<-|[]]]; destruct k; discriminate H.
    - destruct HA as [<-|[<-|[]]]; vm_compute; discriminate.
    - destruct HA as [<-|[<-|[]]]; vm_compute; lia.
    - unfold mediator_public, len64. cbn [or_empty]. rewrite x25519_base_length. discriminate.
    - discriminate.
    - exists (x25519_base mediator_key). split; [now left|]. rewrite x25519_base_length. lia. }
  destruct HT as [text HT]. exists text.
  destruct (C72_recipient toy ex_rand ex_rand "urn:2" (ex_jwe a) alice_key (Some ex_public) "did:toy:mediator" mediator_public text "did:toy:alice" mediator_key
     0 "did:toy:bob" bob_key (Some (x25519_base alice_key)) (Some (x25519_base alice_key)) None None) as [f [next [inner [m' [H1 [H2 [H3 [H4 H5]]]]]]]].
  - exact (eo_order toy toy_env).
  - exact ex_rand_ok.
  - exact ex_rand_ok.
  - exact toy_ids.
  - reflexivity.
  - reflexivity.
  - apply ex_jwe_whole.
  - apply ex_jwe_few.
  - exact ex_one_avoids.
  - apply ex_jwe_typ.
  - destruct HA as [<-|[<-|[]]]; reflexivity.
  - exact HT.
  - apply srepeat_length.
  - now left.
  - now left.
  - destruct HA as [<-|[<-|[]]]; reflexivity.
  - apply srepeat_length.
  - now left.
  - now left.
  - now left.
  - assert (HN : next = "did:toy:bob") by (destruct HA as [<-|[<-|[]]]; now apply some_inj in H3). subst next.
    exists f, inner, m'. split; [exact HT|]. split; [exact H1|]. split; [exact H2|]. split; [exact H4|exact H5].
Qed.

Print Assumptions C72_size.
Print Assumptions C72_total.
Print Assumptions C72_total_message.
Print Assumptions C72_mediator.
Print Assumptions C72_recipient.
