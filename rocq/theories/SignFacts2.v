(** Signed envelopes under other header orders, with foreign headers, and for nobody. *)

From Coq Require Import Ascii String Arith NArith List Bool Permutation Sorted Lia.
From Verif Require Import Bytes BytesFacts Base64 Base64Facts Utf8 Utf8Facts Json JsonFacts Value ValueFacts Types Serde SerdeFacts
  Message Envelope Spec SpecFacts DecodeFacts PlainFacts PlainFacts2 CodecFacts SetterFacts CryptoLaws SpecSign HeaderFacts PropValue SignFacts.
Import ListNotations.
Local Open Scope string_scope.

(** ** Header texts determine headers *)

Definition id_drt : drt := {| fnorm := fun _ => None; hord := fun _ l => l |}.
Lemma re_jwm_id : forall h, re_jwm id_drt h = h.
Proof.
  intros [x1 x2 x3 x4 x5 x6 x7 x8 x9]. unfold re_jwm. cbn. f_equal.
  - destruct x7 as [[y1 y2 y3 y4 y5 y6 y7 y8]|]; reflexivity.
  - destruct x8 as [[y1 y2 y3 y4 y5 y6 y7 y8]|]; reflexivity.
Qed.
Lemma header_text_inj : forall a b, jwm_ok a -> jwm_ok b -> header_text a = header_text b -> a = b.
Proof.
  intros a b Ha Hb H. unfold header_text in H. apply b64_encode_inj in H. apply print_inj in H; [|apply wf_ser_jwm|apply wf_ser_jwm].
  pose proof (de_jwm_ser (bf := false) id_drt a Ha) as H1. rewrite H, (de_jwm_ser id_drt b Hb), !re_jwm_id in H1. now injection H1.
Qed.
Lemma sapp_inj_r : forall a b c : string, a ++ c = b ++ c -> a = b.
Proof.
  intros a b c H. apply (sapp_inj_len a b c c); [|exact H].
  pose proof (f_equal String.length H) as HL. rewrite !slen_app in HL. lia.
Qed.
Definition rev_drt (E : env) : drt := {| fnorm := fl E; hord := fun _ l => rev l |}.
Lemma rev_diff : forall V (l : list (string * V)), NoDup (keys l) -> 2 <= List.length l -> rev l <> l.
Proof.
  intros V l HD HL H. destruct l as [|x l]; [cbn in HL; lia|]. cbn in H. destruct (rev l) as [|y r] eqn:ER.
  - apply (f_equal (@List.length _)) in ER. rewrite rev_length in ER. cbn in *. lia.
  - cbn in H. injection H as -> H. assert (HI : In x l) by (apply in_rev; rewrite ER; now left).
    cbn in HD. inversion HD as [|? ? HN _]; subst. apply HN. unfold keys. now apply in_map.
Qed.
Lemma re_rev_diff : forall E h, jwm_ok h -> many_custom h -> re_jwm (rev_drt E) h <> h.
Proof.
  intros E [x1 x2 x3 x4 x5 x6 x7 x8 x9] [H1 H2] HM H. unfold re_jwm in H. cbn in H. injection H as E1 E2.
  destruct HM as [[k [Hk HL]]|[k [Hk HL]]]; cbn in Hk; subst.
  - destruct (H1 k eq_refl) as [HD _]. destruct k as [y1 y2 y3 y4 y5 y6 y7 y8]. cbn in *. injection E1 as E1. eapply rev_diff; eauto.
  - destruct (H2 k eq_refl) as [HD _]. destruct k as [y1 y2 y3 y4 y5 y6 y7 y8]. cbn in *. injection E2 as E2. eapply rev_diff; eauto.
Qed.
Lemma re_rev_ok : forall E h, jwm_ok h -> jwm_ok (re_jwm (rev_drt E) h).
Proof.
  assert (HJ : forall E k, jwk_ok k -> jwk_ok (re_jwk (rev_drt E) k)).
  { intros E k [H1 H2]. split; cbn [re_jwk jk_other rev_drt hord]; unfold fresh_keys, keys in *; rewrite map_rev.
    - now apply NoDup_rev.
    - now apply Forall_rev. }
  intros E h [H1 H2]. split; intros k Hk; cbn [re_jwm jh_jwk jh_epk] in Hk.
  - destruct (jh_jwk h) as [k'|]; [|discriminate]. injection Hk as <-. apply HJ. now apply H1.
  - destruct (jh_epk h) as [k'|]; [|discriminate]. injection Hk as <-. apply HJ. now apply H2.
Qed.

Lemma rev_order_rejects : forall E m a sk pk text R2, good_header (m_jwm m) -> many_custom (m_jwm m) ->
  jh_alg (m_jwm m) = Some (sig_alg_name a) -> exact_pair E a sk pk -> sign m (signer E a) sk = Ok text ->
  verify E (rev_drt E) R2 text pk = Err EJwsParse.
Proof.
  intros E m a sk pk text R2 HG HM HA HX HS. apply sign_ok in HS. destruct HS as [s [_ [HS ->]]]. apply signer_ok in HS.
  pose proof (good_header_ok _ (good_typ _ DidCommJws HG)) as [HO _].
  unfold verify. destruct (jws_round (rev_drt E) (sign_env m s) (sign_env_good m s HG)) as [-> _]. cbn [oerr rbind].
  destruct (sign_env_entries (rev_drt E) m s HG) as [l [H1 [H2 _]]]. apply has_entries_iff in H1. rewrite H1. cbn [rbind]. rewrite sign_env_payload.
  rewrite check_entries_all_false; [reflexivity|]. eapply Forall_impl; [|exact H2]. intros y ->.
  rewrite (check_signed E _ m a (sig_alg_name a)); [|rewrite sign_get by reflexivity; exact HA|apply sig_alg_name_of].
  rewrite (HX _ _ HS). destruct (String.eqb_spec (header_text (re_jwm (rev_drt E) (sign_header m)) ++ "." ++ sign_payload m) (sign_input m)) as [HE|HE]; [|reflexivity].
  exfalso. unfold sign_input in HE. apply sapp_inj_r in HE. apply header_text_inj in HE; [|now apply re_rev_ok|exact HO].
  apply (re_rev_diff E (sign_header m) HO); [exact HM|exact HE].
Qed.

(** With few custom members no order matters, whatever the key. *)
Lemma few_order_free : forall E R R' R2 m s key, drt_ok R -> drt_ok R' -> good_header (m_jwm m) -> few_custom (m_jwm m) ->
  verify E R R2 (jws_json (sign_env m s)) key = verify E R' R2 (jws_json (sign_env m s)) key.
Proof.
  intros E R R' R2 m s key HR HR' HG HF. unfold verify.
  destruct (jws_round R (sign_env m s) (sign_env_good m s HG)) as [-> _].
  destruct (jws_round R' (sign_env m s) (sign_env_good m s HG)) as [-> _].
  assert (HS : re_signature R (sign_entry m s) = re_signature R' (sign_entry m s)).
  { unfold re_signature, sign_entry. cbn. rewrite !re_jwm_few; auto. }
  assert (HE : re_jws R (sign_env m s) = re_jws R' (sign_env m s)).
  { unfold re_jws, sign_env. destruct (m_flat_jws m); cbn [js_payload js_signature js_signatures option_map].
    - now rewrite HS.
    - f_equal. f_equal. rewrite !map_map. now rewrite HS. }
  now rewrite HE.
Qed.

(** ** Signing for nobody *)

Lemma nobody_decoded : forall R m s w, m_flat_jws m = false -> dh_to (m_did m) = [] ->
  de_jws R (ser_jws (sign_env m s)) = Some w -> js_signatures w = Some [].
Proof.
  intros R m s w HF HT H. unfold sign_env in H. rewrite HF, HT in H. cbn [map] in H. unfold ser_jws in H. cbn in H.
  apply some_inj in H. subst w. reflexivity.
Qed.
Lemma nobody_rejected : forall E R1 R2 m f sk text key, m_flat_jws m = false -> dh_to (m_did m) = [] -> sign m f sk = Ok text ->
  verify E R1 R2 text key <> Panic /\ forall x, verify E R1 R2 text key <> Ok x.
Proof.
  intros E R1 R2 m f sk text key HF HT HS. split; [apply verify_np|]. intros x HV. apply sign_ok in HS. destruct HS as [s [_ [_ ->]]].
  apply verify_ok in HV. destruct HV as [w [l [pre [e [post [raw [H1 [H2 [H3 _]]]]]]]]].
  unfold jws_from_slice in H1. destruct (parse_slice _) as [j|] eqn:EP; [|discriminate]. cbn [obind] in H1. unfold parse_slice in EP.
  destruct (utf8_valid _); [|discriminate]. unfold jws_json in EP. rewrite parse_print in EP by apply wf_ser_jws. apply some_inj in EP. subst j.
  pose proof (nobody_decoded R1 m s w HF HT H1) as HN. destruct H2 as [H2|[H2 _]]; [|congruence].
  rewrite HN in H2. injection H2 as <-. destruct pre; discriminate.
Qed.
Lemma nobody_receive : forall E m f sk text esk epk key x, m_flat_jws m = false -> dh_to (m_did m) = [] -> sign m f sk = Ok text ->
  receive E text esk epk key <> Ok x.
Proof.
  intros E m f sk text esk epk key x HF HT HS HR. unfold receive in HR.
  rewrite (classify_signed _ m f sk text HS) in HR. cbn [rbind is_jwe_type] in HR. rewrite (classify_signed _ m f sk text HS) in HR. cbn [rbind is_jws_type] in HR.
  apply sign_ok in HS. destruct HS as [s [_ [_ ->]]]. rbinv HR. unfold receive_jws in E0. rewrite jws_not_message in E0.
  destruct (jws_from_str _ _) as [w|] eqn:EW; [|discriminate]. unfold jws_from_str, jws_json in EW. rewrite parse_print in EW by apply wf_ser_jws.
  cbn [obind] in EW. unfold jws_entries in E0. rewrite (nobody_decoded _ m s w HF HT EW) in E0. discriminate.
Qed.

(** ** Declared types *)

Lemma holds_one : forall names es k v, In (k, v) es -> NoDup (keys es) -> holds names (JObj es) k v.
Proof.
  intros names es k v H HD. cbn. split; [exact H|]. apply at_most_once_occ. unfold member.
  assert (G : List.length (occ k es) <= 1).
  { clear H. unfold occ. rewrite map_length. induction es as [|[k' x] es IH]; cbn; [lia|]. cbn in HD. inversion HD as [|? ? HN HD']; subst.
    destruct (String.eqb_spec k k') as [->|]; cbn; [|auto].
    assert (filter (fun e : string * json => String.eqb k' (fst e)) es = []) as ->; [|cbn; lia].
    destruct (filter _ es) as [|[k2 y] r] eqn:EF; [reflexivity|]. exfalso. apply HN. assert (HI : In (k2, y) es /\ String.eqb k' k2 = true).
    { pose proof (proj1 (filter_In (fun e : string * json => String.eqb k' (fst e)) (k2, y) es)) as HX. rewrite EF in HX. now apply HX; left. }
    destruct HI as [HI HK]. apply String.eqb_eq in HK. subst k2. unfold keys. apply in_map_iff. now exists (k', y). }
  destruct (occ k es) as [|a [|b l]]; [discriminate|discriminate|]. cbn in G. lia.
Qed.
Lemma jwm_entries_nodup : forall h, NoDup (keys (jwm_entries h)).
Proof.
  intros h. unfold jwm_entries. destruct (jh_enc h), (jh_kid h), (jh_skid h), (jh_alg h), (jh_jku h), (jh_jwk h), (jh_epk h), (jh_cty h); cbn;
    repeat (constructor; [cbn; intros G; repeat (destruct G as [G|G]; [discriminate|]); exact G|]); constructor.
Qed.
Lemma typ_field : forall h, exists e, holds jose_names (ser_jwm h) "typ" (JStr e (message_type_name (jh_typ h))).
Proof. intros h. eexists. apply holds_one; [now left|apply jwm_entries_nodup]. Qed.
Lemma signature_entries_nodup : forall s, NoDup (keys (signature_entries s)).
Proof.
  intros s. unfold signature_entries. destruct (sg_protected s), (sg_header s); cbn;
    repeat (constructor; [cbn; intros G; repeat (destruct G as [G|G]; [discriminate|]); exact G|]); constructor.
Qed.
Lemma header_protected_tree : forall e h b, holds entry_names e "protected" (JStr b (header_b64 h)) -> Forall rust_string (jwm_strings h) ->
  protected_tree e (ser_jwm h).
Proof.
  intros e h b H HU. exists (header_b64 h), (print (ser_jwm h)). split; [now exists b|]. split; [apply b64_text_encode|].
  split; [apply print_utf8; [apply wf_ser_jwm|now apply utf8_ser_jwm]|]. apply parse_print. apply wf_ser_jwm.
Qed.
Lemma sign_types : forall m f sk text, rust_message m -> sign m f sk = Ok text -> exists es p pes b,
  parse text = Some (JObj es) /\ text_field jws_names (JObj es) "payload" p /\ b64_text (print (JObj pes)) p /\
  In ("typ", JStr b "application/didcomm-plain+json") pes /\ parse (print (JObj pes)) = Some (JObj pes) /\
  forall e, sig_entry (JObj es) e -> exists hj, protected_tree e hj /\ text_field jose_names hj "typ" "application/didcomm-signed+json".
Proof.
  intros m f sk text HM HS. apply sign_ok in HS. destruct HS as [s [_ [_ ->]]].
  assert (HM' : rust_message (with_jwm m jwm_default)).
  { destruct HM as [R1 R2 R3 R4 R5 R6 R7 R8 R9 R10]. constructor; try assumption; try exact I.
    unfold message_strings in *. cbn [with_jwm m_jwm m_did m_recipients m_body m_attachments] in *. apply Forall_app in R1. apply Forall_app. split; [constructor|apply R1]. }
  assert (HH : Forall rust_string (jwm_strings (sign_header m))).
  { destruct HM as [R1 _ _ _ _ _ _ _ _ _]. unfold message_strings in R1. apply Forall_app in R1. apply R1. }
  assert (HE : forall e, holds entry_names e "protected" (jstr (header_b64 (sign_header m))) ->
    exists hj, protected_tree e hj /\ text_field jose_names hj "typ" "application/didcomm-signed+json").
  { intros e He. exists (ser_jwm (sign_header m)). split; [eapply header_protected_tree; [exact He|exact HH]|].
    destruct (typ_field (sign_header m)) as [b Hb]. exists b. exact Hb. }
  unfold jws_json. rewrite parse_print by apply wf_ser_jws.
  exists (match ser_jws (sign_env m s) with JObj es => es | _ => [] end), (sign_payload m), (message_entries (with_jwm m jwm_default)), false.
  split; [reflexivity|]. split; [|split; [|split; [|split]]].
  - eexists. unfold sign_env. destruct (m_flat_jws m); (apply holds_one; [now left|]);
      cbn; repeat (constructor; [cbn; intros G; repeat (destruct G as [G|G]; [discriminate|]); exact G|]); constructor.
  - rewrite <- ser_message_entries. apply b64_text_encode.
  - unfold message_entries. now left.
  - apply parse_print. rewrite <- ser_message_entries. apply rust_message_wf. exact HM'.
  - intros e He. unfold sign_env in He. destruct (m_flat_jws m); cbn in He.
    + inversion He as [es l x HH2 HI HX|es HL HX]; subst.
      * cbn in HH2. destruct HH2 as [HH2 _]. repeat (destruct HH2 as [HH2|HH2]; [discriminate|]). destruct HH2.
      * apply HE. apply holds_one; [right; now left|].
        cbn; repeat (constructor; [cbn; intros G; repeat (destruct G as [G|G]; [discriminate|]); exact G|]); constructor.
    + inversion He as [es l x HH2 HI HX|es HL HX]; subst.
      * cbn in HH2. destruct HH2 as [HH2 _]. destruct HH2 as [HH2|[HH2|[]]]; [discriminate|]. injection HH2 as <-.
        apply in_map_iff in HI. destruct HI as [y [<- HI]]. apply in_map_iff in HI. destruct HI as [_ [<- _]].
        apply HE. unfold ser_signature. apply holds_one; [now left|apply signature_entries_nodup].
      * exfalso. assert (HN : JArr (map ser_signature (map (fun _ => sign_entry m s) (dh_to (m_did m)))) = JNull).
        { apply HL. apply holds_one; [right; now left|].
          cbn; repeat (constructor; [cbn; intros G; repeat (destruct G as [G|G]; [discriminate|]); exact G|]); constructor. }
        discriminate.
Qed.

(** ** Envelopes of other implementations *)

Lemma wf_flat : forall raw payload s, wf_json (JObj [("payload", jstr payload); ("protected", jstr (b64_encode raw)); ("signature", jstr (b64_encode s))]).
Proof. intros. cbn. repeat split; reflexivity. Qed.
Lemma flat_decode : forall R raw payload s hj h, utf8_valid payload = true -> parse_slice raw = Some hj -> de_jwm R false hj = Some h ->
  jws_from_slice R (flat_envelope raw payload s) =
  Some {| js_payload := payload; js_signature := Some {| sg_protected := Some h; sg_header := None; sg_signature := s |}; js_signatures := None |}.
Proof.
  intros R raw payload s hj h HU H1 H2. unfold jws_from_slice, flat_envelope. rewrite parse_slice_print.
  - cbn [obind de_jws]. cbn -[de_jwm b64_encode b64_decode parse_slice needs_escape jstr].
    unfold jstr at 1 2 3. cbn [de_string obind buf_ok andb]. unfold de_signature_from.
    assert (HM : forall k v1 v2, member [("protected", v1); ("signature", v2)] k =
      if String.eqb k "protected" then Some (Got v1) else if String.eqb k "signature" then Some (Got v2) else Some Absent).
    { intros k v1 v2. unfold member, occ. cbn. destruct (String.eqb_spec k "protected") as [->|]; [reflexivity|].
      destruct (String.eqb_spec k "signature") as [->|]; reflexivity. }
    rewrite !HM. cbn [String.eqb Ascii.eqb Bool.eqb].
    assert (HD : dopt (de_jwm R false) (Some (Got hj)) = Some (Some h)) by (destruct hj; try discriminate; cbn [dopt]; now rewrite H2).
    unfold de_protected. cbn [ddef jstr de_string option_map]. rewrite b64_decode_encode. cbn [obind]. rewrite H1. cbn [obind].
    rewrite HD. cbn [obind dopt]. unfold jstr. rewrite !b64_no_escape. cbn [ddef de_b64_buffer]. rewrite b64_decode_encode. reflexivity.
  - apply wf_flat.
  - apply jutf8_obj. repeat (constructor; [split; [reflexivity|apply jutf8_jstr; first [exact HU|apply b64_utf8]]|]). constructor.
Qed.
