(** Facts about routed and about signed and sealed messages. *)

From Coq Require Import Ascii String Arith NArith List Bool Permutation Sorted Lia.
From Verif Require Import Bytes BytesFacts Base64 Base64Facts Utf8 Utf8Facts Json JsonFacts Value ValueFacts Types Serde SerdeFacts
  Message Attach ChaCha Envelope Spec SpecFacts DecodeFacts PlainFacts CodecFacts SetterFacts SpecText CryptoLaws
  SpecSign HeaderFacts SignFacts SignFacts2 SpecSeal SealFacts SealFacts2 SealFacts3 SpecKey KeyFacts SpecRoute.
Import ListNotations.
Local Open Scope string_scope.

(** ** Forward bodies *)

Lemma bytes_json_list : forall s, byte_list (bytes_json s) s.
Proof. induction s as [|c s IH]; [constructor|]. cbn [bytes_json]. now constructor. Qed.
Lemma ser_mediated_forwards : forall md, forwards (ser_mediated md) (md_next md) (md_payload md).
Proof.
  intros md. unfold ser_mediated. exists [("next", jstr (md_next md)); ("payloads~attach", JArr (bytes_json (md_payload md)))], (needs_escape (md_next md)), (bytes_json (md_payload md)).
  split; [reflexivity|]. split; [now left|]. split; [right; now left|]. split; [apply bytes_json_list|].
  cbn. constructor; [intros [H|[]]; discriminate|]. constructor; [intros []|constructor].
Qed.

(** ** Other bodies *)

Lemma with_body_sendable : forall E m b, sendable E m -> Forall rust_string (json_strings b) -> rust_value b -> depth b <= 126 -> stable (rt E 0) b -> sendable E (with_body m b).
Proof.
  intros E m b [[R1 R2 R3 R4 R5 R6 R7 R8 R9 R10] S2 S3 S4 S5 S6 S7] H1 H2 H3 H4. constructor; try assumption. constructor; try assumption.
  unfold message_strings in *. cbn [with_body m_jwm m_did m_recipients m_body m_attachments] in *. fa; assumption.
Qed.
Definition entry_json (m : message) (s : string) : list (string * json) :=
  [("protected", jstr (header_b64 (sign_header m))); ("signature", jstr (b64_encode s))].
Definition jws_tree (m : message) (s : string) : json :=
  if m_flat_jws m then JObj (("payload", jstr (sign_payload m)) :: entry_json m s)
  else JObj [("payload", jstr (sign_payload m)); ("signatures", JArr (map (fun _ => JObj (entry_json m s)) (dh_to (m_did m))))].
Lemma jws_tree_eq : forall m s, ser_jws (sign_env m s) = jws_tree m s.
Proof.
  intros m s. unfold sign_env, jws_tree. destruct (m_flat_jws m); [reflexivity|]. unfold ser_jws. cbn [js_payload js_signature js_signatures sopt app]. now rewrite map_map.
Qed.
Lemma entry_value : forall m s, rust_value (JObj (entry_json m s)).
Proof.
  intros m s. constructor.
  - cbn. repeat constructor.
  - intros kv [<-|[<-|[]]]; constructor.
Qed.
Lemma jws_tree_value : forall m s, rust_value (jws_tree m s).
Proof.
  intros m s. unfold jws_tree. destruct (m_flat_jws m); constructor.
  - cbn. repeat constructor.
  - intros kv [<-|[<-|[<-|[]]]]; constructor.
  - cbn. repeat constructor.
  - intros kv [<-|[<-|[]]]; [constructor|]. cbn [snd]. constructor. intros x Hx. apply in_map_iff in Hx. destruct Hx as [_ [<- _]]. apply entry_value.
Qed.
Lemma entry_stable : forall R m s, stable R (JObj (entry_json m s)).
Proof. intros R m s. constructor; [intros ? ? ? EQ; injection EQ as <- _ _; discriminate|]. intros kv [<-|[<-|[]]]; constructor. Qed.
Lemma jws_tree_stable : forall R m s, stable R (jws_tree m s).
Proof.
  intros R m s. unfold jws_tree. destruct (m_flat_jws m); constructor; [intros ? ? ? EQ; injection EQ as <- _ _; discriminate| |intros ? ? ? EQ; injection EQ as <- _ _; discriminate|].
  - intros kv [<-|[<-|[<-|[]]]]; constructor.
  - intros kv [<-|[<-|[]]]; [constructor|]. cbn [snd]. constructor. intros x Hx. apply in_map_iff in Hx. destruct Hx as [_ [<- _]]. apply entry_stable.
Qed.
Lemma jws_tree_strings : forall m s, Forall rust_string (json_strings (jws_tree m s)).
Proof.
  intros m s. apply Forall_forall. intros x H. unfold jws_tree in H. destruct (m_flat_jws m).
  - cbn [json_strings flat_map fst snd jstr app entry_json] in H. destruct H as [<-|[<-|[<-|[<-|[<-|[<-|[]]]]]]]; first [reflexivity|apply b64_utf8].
  - cbn [json_strings flat_map fst snd jstr app] in H. destruct H as [<-|[<-|[<-|H]]]; [reflexivity|apply b64_utf8|reflexivity|].
    rewrite app_nil_r in H. apply in_flat_map in H. destruct H as [y [Hy H]]. apply in_map_iff in Hy. destruct Hy as [_ [<- _]].
    cbn [json_strings flat_map fst snd jstr app entry_json] in H. destruct H as [<-|[<-|[<-|[<-|[]]]]]; first [reflexivity|apply b64_utf8].
Qed.
Lemma jws_tree_depth : forall m s, depth (jws_tree m s) <= 3.
Proof.
  intros m s. unfold jws_tree. destruct (m_flat_jws m); [cbn; lia|]. apply depth_obj_le. constructor; [cbn; lia|]. constructor; [|constructor].
  cbn [snd]. apply depth_arr_le. apply Forall_forall. intros x Hx. apply in_map_iff in Hx. destruct Hx as [_ [<- _]]. cbn. lia.
Qed.
Lemma jws_tree_sendable : forall E m m' s, sendable E m -> sendable E (with_body m (jws_tree m' s)).
Proof.
  intros E m m' s HS. apply with_body_sendable; [exact HS|apply jws_tree_strings|apply jws_tree_value| |apply jws_tree_stable].
  pose proof (jws_tree_depth m' s). lia.
Qed.

(** ** Signed, then sealed *)

Lemma seal_signed_ok : forall E rnd m sk keys sa ssk text, seal_signed E rnd m sk keys sa ssk = Ok text ->
  exists s, sig_sign E sa ssk (sign_input (as_jws m sa)) = Some s /\
    seal E rnd (set_typ (with_body m (jws_tree (as_jws m sa) s)) DidCommJws) sk keys = Ok text.
Proof.
  intros E rnd m sk keys sa ssk text H. unfold seal_signed in H. destruct (sign (as_jws m sa) (signer E sa) ssk) as [signed| |] eqn:ES; [|discriminate|discriminate].
  cbn [rbind] in H. apply sign_ok in ES. destruct ES as [s [_ [H1 ->]]]. apply signer_ok in H1. exists s. split; [exact H1|].
  unfold jws_json in H. rewrite parse_print in H by apply wf_ser_jws. cbn [oerr rbind] in H. rewrite jws_tree_eq in H.
  rewrite (value_of_canon (rt E 0) max_depth (jws_tree (as_jws m sa) s)) in H; [exact H| |].
  - apply rust_canon; [apply jws_tree_value|apply jws_tree_stable].
  - pose proof (jws_tree_depth (as_jws m sa) s). unfold max_depth. lia.
Qed.
(** What the recipient of such an envelope does, down to the check of the signature. *)
Lemma seal_signed_receive : forall E rnd m sk keys sa ssk text i dest rsk spk gpk from, env_ok E -> crypto_ok E -> rand_ok rnd -> sendable E m -> few_custom (m_jwm m) ->
  avoids envelope_names (dh_other (m_did m)) -> dh_from (m_did m) = Some from ->
  seal_signed E rnd m sk keys sa ssk = Ok text -> nth_error (dh_to (m_did m)) i = Some dest -> String.length rsk = 32 ->
  known_key E dest (given_key keys i) (x_pub E rsk) -> known_key E from spk (x_pub E sk) -> others_closed E rnd m sk keys rsk i ->
  exists s, sig_sign E sa ssk (sign_input (as_jws m sa)) = Some s /\
    receive E text (Some rsk) spk gpk =
      (let? key := signing_key gpk (jh_kid (m_jwm m)) in
       let? v := verify E (rt E 6) (rt E 7) (jws_json (sign_env (as_jws m sa) s)) key in
       oerr (message_from_str (rt E 9) (message_json v)) ESerde).
Proof.
  intros E rnd m sk keys sa ssk text i dest rsk spk gpk from HE HC HR HS HF HA HFr HT HN L HK HSK HB.
  apply seal_signed_ok in HT. destruct HT as [s [H1 HT]]. exists s. split; [exact H1|].
  set (sm := set_typ (with_body m (jws_tree (as_jws m sa) s)) DidCommJws) in *.
  assert (HSM : sendable E sm).
  { unfold sm, set_typ. apply with_jwm_sendable; [now apply jws_tree_sendable|]. apply good_typ. exact (sendable_header E m HS). }
  destruct (seal_receive_jwe E rnd sm sk keys text i dest rsk spk from HE HC HR HSM HF HFr HT HN L HK HSK HB) as [rs [G1 [_ [G2 G3]]]].
  assert (HAL : jh_alg (m_jwm m) <> None). { apply seal_text in HT. destruct HT as [a [_ [_ [_ [_ [HT _]]]]]]. change (jh_alg (m_jwm sm)) with (jh_alg (m_jwm m)) in HT. congruence. }
  pose proof (with_recipients_sendable E sm rs HSM G1) as HSR. pose proof (re_message_same E 3 (with_recipients sm (Some rs)) HE) as HM. pose proof (same_sendable E _ _ HM HSR) as HS'.
  assert (HA' : avoids envelope_names (dh_other (m_did (re_message (rt E 3) (with_recipients sm (Some rs)))))).
  { destruct HM as [_ [HM _]]. eapply avoids_perm; [|exact HA]. apply HM. }
  unfold receive. rewrite G3. cbn [rbind is_jwe_type oerr]. rewrite G2. cbn [rbind]. rewrite (classify_message E 4 _ HS' HA'). cbn [rbind].
  change (is_jws_type (jh_typ (m_jwm (re_message (rt E 3) (with_recipients sm (Some rs)))))) with true. cbv iota.
  unfold receive_jws. rewrite (sendable_from_str E 5 _ HS').
  change (jh_alg (m_jwm (re_message (rt E 5) (re_message (rt E 3) (with_recipients sm (Some rs)))))) with (jh_alg (m_jwm m)).
  change (jh_kid (m_jwm (re_message (rt E 5) (re_message (rt E 3) (with_recipients sm (Some rs)))))) with (jh_kid (m_jwm m)).
  change (get_body (re_message (rt E 5) (re_message (rt E 3) (with_recipients sm (Some rs))))) with (print (jws_tree (as_jws m sa) s)).
  rewrite <- jws_tree_eq. change (print (ser_jws (sign_env (as_jws m sa) s))) with (jws_json (sign_env (as_jws m sa) s)).
  destruct (jh_alg (m_jwm m)) as [alg|]; [|congruence]. destruct (signing_key gpk (jh_kid (m_jwm m))) as [key| |]; [|reflexivity|reflexivity]. cbn [rbind].
  destruct (verify E _ _ _ key) as [v| |]; reflexivity.
Qed.
Lemma seal_signed_round_trip : forall E rnd m sk keys sa ssk text i dest rsk spk gpk from, env_ok E -> crypto_ok E -> rand_ok rnd -> sendable E m -> few_custom (m_jwm m) ->
  avoids envelope_names (dh_other (m_did m)) -> dh_from (m_did m) = Some from ->
  seal_signed E rnd m sk keys sa ssk = Ok text -> nth_error (dh_to (m_did m)) i = Some dest -> String.length rsk = 32 ->
  known_key E dest (given_key keys i) (x_pub E rsk) -> known_key E from spk (x_pub E sk) -> others_closed E rnd m sk keys rsk i -> key_pair E sa ssk gpk ->
  receive E text (Some rsk) spk (Some gpk) = Ok (re_message (rt E 9) (re_message (rt E 7) (with_jwm m jwm_default))).
Proof.
  intros E rnd m sk keys sa ssk text i dest rsk spk gpk from HE HC HR HS HF HA HFr HT HN L HK HSK HB HP.
  destruct (seal_signed_receive E rnd m sk keys sa ssk text i dest rsk spk (Some gpk) from HE HC HR HS HF HA HFr HT HN L HK HSK HB) as [s [H1 ->]].
  cbn [signing_key rbind].
  rewrite (verify_signed E (rt E 6) (rt E 7) (as_jws m sa) sa ssk gpk (jws_json (sign_env (as_jws m sa) s))).
  - change (with_jwm (as_jws m sa) jwm_default) with (with_jwm m jwm_default). pose proof (with_default_sendable E m HS) as HD.
    rewrite (sendable_from_slice E 7 _ HD). cbn [oerr rbind]. pose proof (same_sendable E _ _ (re_message_same E 7 _ HE) HD) as HD'.
    rewrite (sendable_from_str E 9 _ HD'). reflexivity.
  - now apply env_drt.
  - apply as_jws_good. now apply (sendable_header E).
  - exact HF.
  - reflexivity.
  - exact HP.
  - apply sign_ok. exists s. split; [discriminate|]. split; [now apply signer_ok|reflexivity].
  - right. exact (sd_to E m HS).
Qed.
(** An accepted envelope carries a valid signature. *)
Lemma seal_signed_checked : forall E rnd m sk keys sa ssk text i dest rsk spk gpk from m', env_ok E -> crypto_ok E -> rand_ok rnd -> sendable E m -> few_custom (m_jwm m) ->
  avoids envelope_names (dh_other (m_did m)) -> dh_from (m_did m) = Some from ->
  seal_signed E rnd m sk keys sa ssk = Ok text -> nth_error (dh_to (m_did m)) i = Some dest -> String.length rsk = 32 ->
  known_key E dest (given_key keys i) (x_pub E rsk) -> known_key E from spk (x_pub E sk) -> others_closed E rnd m sk keys rsk i ->
  receive E text (Some rsk) spk (Some gpk) = Ok m' ->
  exists s, sig_sign E sa ssk (sign_input (as_jws m sa)) = Some s /\ sig_verify E sa gpk (sign_input (as_jws m sa)) s = Some true.
Proof.
  intros E rnd m sk keys sa ssk text i dest rsk spk gpk from m' HE HC HR HS HF HA HFr HT HN L HK HSK HB HRec.
  destruct (seal_signed_receive E rnd m sk keys sa ssk text i dest rsk spk (Some gpk) from HE HC HR HS HF HA HFr HT HN L HK HSK HB) as [s [H1 H2]].
  exists s. split; [exact H1|]. rewrite H2 in HRec. cbn [signing_key rbind] in HRec.
  destruct (verify E (rt E 6) (rt E 7) (jws_json (sign_env (as_jws m sa) s)) gpk) as [v| |] eqn:EV; [|discriminate|discriminate].
  assert (HG : good_header (m_jwm (as_jws m sa))) by (apply as_jws_good; now apply (sendable_header E)).
  apply verify_ok in EV. destruct EV as [w [l [pre [x [post [raw [V1 [V2 [V3 [_ [V4 _]]]]]]]]]]].
  destruct (jws_round (rt E 6) _ (sign_env_good (as_jws m sa) s HG)) as [J _]. rewrite J in V1. apply some_inj in V1. subst w.
  destruct (sign_env_entries (rt E 6) (as_jws m sa) s HG) as [l' [L1 [L2 _]]]. apply has_entries_iff in L1, V2. rewrite V2 in L1. apply ok_inj in L1. subst l'.
  assert (HX : x = re_signature (rt E 6) (sign_entry (as_jws m sa) s)) by (rewrite Forall_forall in L2; apply L2; rewrite V3; apply in_elt). subst x.
  rewrite sign_env_payload in V4. rewrite (check_signed E (rt E 6) (as_jws m sa) sa (sig_alg_name sa) s gpk) in V4; [|apply sign_get; reflexivity|apply sig_alg_name_of].
  apply oerr_ok in V4. unfold sign_input. rewrite re_jwm_few in V4; [exact V4|now apply env_drt|exact HF].
Qed.

(** ** Routing *)

Lemma bytes_json_value : forall s x, In x (bytes_json s) -> rust_value x /\ (forall R, stable R x) /\ json_strings x = [] /\ depth x = 0.
Proof.
  induction s as [|c s IH]; intros x H; [destruct H|]. destruct H as [<-|H]; [|now apply IH]. unfold jnat. repeat split.
  - constructor. apply numtok_dec.
  - intros R. constructor. apply vnum_dec. pose proof (code_lt c). unfold u64_max. lia.
Qed.
Lemma mediated_value : forall md, rust_value (ser_mediated md).
Proof.
  intros md. constructor.
  - cbn. repeat constructor.
  - intros kv [<-|[<-|[]]]; [constructor|]. constructor. intros x H. now apply bytes_json_value in H.
Qed.
Lemma mediated_stable : forall R md, stable R (ser_mediated md).
Proof. intros R md. constructor; [intros ? ? ? EQ; injection EQ as <- _ _; discriminate|]. intros kv [<-|[<-|[]]]; [constructor|]. constructor. intros x H. now apply bytes_json_value in H. Qed.
Lemma mediated_strings : forall md, rust_string (md_next md) -> Forall rust_string (json_strings (ser_mediated md)).
Proof.
  intros md HN. apply Forall_forall. intros x H. unfold ser_mediated in H. cbn [json_strings flat_map fst snd jstr app] in H.
  destruct H as [<-|[<-|[<-|H]]]; [reflexivity|exact HN|reflexivity|]. rewrite app_nil_r in H. apply in_flat_map in H. destruct H as [y [Hy H]].
  apply bytes_json_value in Hy. destruct Hy as [_ [_ [Hy _]]]. rewrite Hy in H. destruct H.
Qed.
Lemma mediated_depth : forall md, depth (ser_mediated md) <= 2.
Proof.
  intros md. apply depth_obj_le. constructor; [cbn; lia|]. constructor; [|constructor]. apply depth_arr_le. apply Forall_forall. intros x Hx.
  apply bytes_json_value in Hx. destruct Hx as [_ [_ [_ ->]]]. lia.
Qed.
(** The outer message before its body is set. *)
Definition outer_shell (E : env) (uuid from : string) (a : crypto_algorithm) (mediator : string) (key : option string) : message :=
  set_typ (as_jwe (resolve E) (set_from (set_to (message_new uuid) [mediator]) from) a key) DidCommForward.
Lemma outer_shell_did : forall E uuid from a mediator key, m_did (outer_shell E uuid from a mediator key) =
  dh_with_from (dh_with_to (didcomm_new uuid) (filter non_empty [mediator])) (Some from).
Proof.
  intros E uuid from a mediator key. unfold outer_shell, as_jwe. rewrite set_to_filter.
  destruct key as [k|]; [reflexivity|]. cbn [set_from with_did m_did dh_from dh_with_from]. destruct (resolve E from); reflexivity.
Qed.
Lemma outer_shell_rest : forall E uuid from a mediator key, let m := outer_shell E uuid from a mediator key in
  m_recipients m = None /\ m_flat_jwe m = false /\ m_flat_jws m = false /\ m_attachments m = [] /\ jh_typ (m_jwm m) = DidCommForward /\ jh_jwk (m_jwm m) = None /\ jh_epk (m_jwm m) = None /\
  (usable a -> jh_alg (m_jwm m) = Some (wrap_name a)).
Proof.
  intros E uuid from a mediator key m. subst m. unfold outer_shell, as_jwe. rewrite set_to_filter.
  destruct key as [k|]; [|cbn [set_from with_did m_did dh_from dh_with_from]; destruct (resolve E from)]; destruct a; repeat split; intros H; now elim H.
Qed.
Definition resolved_ids (E : env) : Prop := forall did doc crv id, resolve E did = Some doc -> doc_key_id doc crv = Some id -> rust_string id.
Lemma outer_shell_header : forall E uuid from a mediator key, resolved_ids E -> good_header (m_jwm (outer_shell E uuid from a mediator key)).
Proof.
  intros E uuid from a mediator key HI. unfold outer_shell, as_jwe. rewrite set_to_filter.
  assert (HD : good_header (as_encrypted jwm_default a)) by (unfold as_encrypted; destruct a; repeat first [apply good_alg; [reflexivity|] | apply good_enc; [reflexivity|] | apply good_typ]; exact default_good).
  destruct key as [k|].
  - apply good_typ. apply good_kid; [apply b64_utf8|exact HD].
  - cbn [set_from with_did m_did dh_from dh_with_from]. destruct (resolve E from) as [doc|] eqn:ER; [|apply good_typ; exact HD].
    apply good_typ. apply good_kid; [|exact HD]. destruct (doc_key_id doc _) as [id|] eqn:EI; [|exact I]. exact (HI _ _ _ _ ER EI).
Qed.
Lemma outer_sendable : forall E uuid from a mediator key md, resolved_ids E -> rust_string uuid -> rust_string from -> rust_string mediator -> mediator <> "" -> rust_string (md_next md) ->
  sendable E (with_body (outer_shell E uuid from a mediator key) (ser_mediated md)).
Proof.
  intros E uuid from a mediator key md HI U1 U2 U3 HM U4. pose proof (outer_shell_header E uuid from a mediator key HI) as [[H1 [H2 H3]] [H4 H5]].
  destruct (outer_shell_rest E uuid from a mediator key) as [R1 [R2 [R3 [R4 [R5 [R6 [R7 _]]]]]]]. pose proof (outer_shell_did E uuid from a mediator key) as HD.
  revert H1 H2 H3 H4 H5 R1 R2 R3 R4 R5 R6 R7 HD. generalize (outer_shell E uuid from a mediator key). intros o H1 H2 H3 H4 H5 R1 R2 R3 R4 R5 R6 R7 HD.
  assert (HT : filter non_empty [mediator] = [mediator]) by (cbn; unfold non_empty; destruct (String.eqb_spec mediator ""); [contradiction|reflexivity]). rewrite HT in HD.
  constructor; cbn [with_body m_jwm m_did m_recipients m_body m_attachments]; rewrite ?HD, ?R1; try exact I.
  - constructor; cbn [with_body m_jwm m_did m_recipients m_body m_attachments]; rewrite ?HD, ?R1, ?R4, ?R6, ?R7; try exact I.
    + unfold message_strings. cbn [with_body m_jwm m_did m_recipients m_body m_attachments]. rewrite HD, R1, R4.
      apply Forall_app. split; [exact H1|]. apply Forall_app. split; [|apply Forall_app; split; [constructor|apply Forall_app; split; [now apply mediated_strings|constructor]]].
      cbn. repeat (constructor; [first [assumption|reflexivity]|]). constructor.
    + constructor.
    + apply mediated_value.
    + constructor.
  - discriminate.
  - intros k [].
  - now split.
  - pose proof (mediated_depth md). lia.
  - apply mediated_stable.
Qed.
Lemma routed_ok : forall E rnd1 rnd2 uuid m sk keys mediator mkey text, routed_by E rnd1 rnd2 uuid m sk keys mediator mkey = Ok text ->
  exists a inner next rest, usable a /\ jh_alg (m_jwm m) = Some (wrap_name a) /\ dh_to (m_did m) = next :: rest /\ seal E rnd1 m sk keys = Ok inner /\ mediator <> "" /\
    seal E rnd2 (with_body (outer_shell E uuid (or_empty (dh_from (m_did m))) a mediator mkey) (ser_mediated {| md_next := next; md_payload := inner |})) sk (Some [mkey]) = Ok text.
Proof.
  intros E rnd1 rnd2 uuid m sk keys mediator mkey text H. unfold routed_by in H. destruct (crypter_of (m_jwm m)) as [a| |] eqn:EA; [|discriminate|discriminate]. cbn [rbind] in H.
  destruct (first_to (m_did m)) as [next| |] eqn:EN; [|discriminate|discriminate]. cbn [rbind] in H.
  destruct (seal E rnd1 m sk keys) as [inner| |] eqn:ES; [|discriminate|discriminate]. cbn [rbind] in H.
  unfold set_body in H. rewrite parse_print in H by (apply rust_value_wf, mediated_value). cbn [oerr rbind] in H.
  assert (HV : forall md, value_of (rt E 0) max_depth (ser_mediated md) = Some (ser_mediated md)).
  { intros md. apply value_of_canon; [apply rust_canon; [apply mediated_value|apply mediated_stable]|]. pose proof (mediated_depth md). unfold max_depth. lia. }
  rewrite HV in H. cbn [oerr rbind] in H.
  assert (HA : usable a /\ jh_alg (m_jwm m) = Some (wrap_name a)).
  { unfold crypter_of in EA. destruct (jh_alg (m_jwm m)) as [n|]; [|discriminate]. apply crypto_alg_of_ok in EA. destruct EA as [E1 ->]. now split. }
  unfold first_to in EN. destruct (dh_to (m_did m)) as [|d rest]; [discriminate|]. apply ok_inj in EN. subst d.
  exists a, inner, next, rest. split; [apply HA|]. split; [apply HA|]. split; [reflexivity|]. split; [reflexivity|]. split; [|exact H].
  intros ->. apply seal_ok in H. destruct H as [_ [H _]]. apply H. cbn [with_body m_did].
  change (dh_to (m_did (outer_shell E uuid (or_empty (dh_from (m_did m))) a "" mkey)) = []). now rewrite outer_shell_did.
Qed.

(** What the mediator gets. *)
Lemma routed_mediator : forall E rnd1 rnd2 uuid m sk keys mediator mkey text from msk spk gpk, env_ok E -> crypto_ok E -> rand_ok rnd2 -> resolved_ids E ->
  rust_string uuid -> rust_string mediator -> Forall rust_string (dh_to (m_did m)) -> rust_string from -> dh_from (m_did m) = Some from ->
  routed_by E rnd1 rnd2 uuid m sk keys mediator mkey = Ok text -> String.length msk = 32 ->
  known_key E mediator mkey (x_pub E msk) -> known_key E from spk (x_pub E sk) ->
  exists inner next rest a rs, dh_to (m_did m) = next :: rest /\ seal E rnd1 m sk keys = Ok inner /\
    let o := with_body (outer_shell E uuid from a mediator mkey) (ser_mediated {| md_next := next; md_payload := inner |}) in
    dh_to (m_did o) = [mediator] /\ List.length rs = 1 /\
    receive E text (Some msk) spk gpk = Ok (re_message (rt E 9) (re_message (rt E 3) (with_recipients o (Some rs)))).
Proof.
  intros E rnd1 rnd2 uuid m sk keys mediator mkey text from msk spk gpk HE HC HR HI U1 U2 U3 U4 HF H L HK HSK.
  apply routed_ok in H. destruct H as [a [inner [next [rest [HU [HA [HT [HS [HM H]]]]]]]]]. rewrite HF in H. cbn [or_empty] in H.
  assert (HN : rust_string next) by (rewrite HT in U3; now inversion U3).
  pose proof (outer_sendable E uuid from a mediator mkey {| md_next := next; md_payload := inner |} HI U1 U4 U2 HM HN) as HSend.
  pose proof (outer_shell_did E uuid from a mediator mkey) as HD.
  assert (HFil : filter non_empty [mediator] = [mediator]) by (cbn; unfold non_empty; destruct (String.eqb_spec mediator ""); [contradiction|reflexivity]). rewrite HFil in HD.
  destruct (outer_shell_rest E uuid from a mediator mkey) as [R1 [R2 [R3 [R4 [R5 [R6 [R7 _]]]]]]].
  destruct (outer_shell_header E uuid from a mediator mkey HI) as [HH1 HH2].
  exists inner, next, rest, a.
  destruct (seal_receive E rnd2 (with_body (outer_shell E uuid from a mediator mkey) (ser_mediated {| md_next := next; md_payload := inner |})) sk (Some [mkey]) text 0 mediator msk spk gpk from)
    as [rs [_ [HL [_ [_ HRec]]]]]; [exact HE|exact HC|exact HR|exact HSend| | | | |exact H| |exact L|exact HK|exact HSK|apply closed_first|].
  - cbn [with_body m_jwm]. clear - R6. unfold few_custom, outer_shell, as_jwe. rewrite set_to_filter.
    destruct mkey as [k|]; [|cbn [set_from with_did m_did dh_from dh_with_from]; destruct (resolve E from)]; destruct a; cbn; lia.
  - cbn [with_body m_did]. rewrite HD. intros k []. 
  - cbn [with_body m_jwm]. rewrite R5. discriminate.
  - cbn [with_body m_did]. now rewrite HD.
  - cbn [with_body m_did]. now rewrite HD.
  - exists rs. split; [exact HT|]. split; [exact HS|]. cbn zeta.
    assert (HTo : dh_to (m_did (with_body (outer_shell E uuid from a mediator mkey) (ser_mediated {| md_next := next; md_payload := inner |}))) = [mediator])
      by (cbn [with_body m_did]; now rewrite HD).
    rewrite HTo in HL. split; [exact HTo|]. split; [exact HL|exact HRec].
Qed.

(** ** Success *)

Lemma seal_signed_seals : forall E rnd m sk keys sa ssk s, sig_sign E sa ssk (sign_input (as_jws m sa)) = Some s ->
  seal_signed E rnd m sk keys sa ssk = seal E rnd (set_typ (with_body m (jws_tree (as_jws m sa) s)) DidCommJws) sk keys.
Proof.
  intros E rnd m sk keys sa ssk s H. unfold seal_signed.
  assert (HS : sign (as_jws m sa) (signer E sa) ssk = Ok (jws_json (sign_env (as_jws m sa) s))).
  { apply sign_ok. exists s. split; [destruct sa; discriminate|]. split; [now apply signer_ok|reflexivity]. }
  rewrite HS. cbn [rbind]. unfold jws_json. rewrite parse_print by apply wf_ser_jws. cbn [oerr rbind]. rewrite jws_tree_eq.
  rewrite (value_of_canon (rt E 0) max_depth (jws_tree (as_jws m sa) s)); [reflexivity| |].
  - apply rust_canon; [apply jws_tree_value|apply jws_tree_stable].
  - pose proof (jws_tree_depth (as_jws m sa) s). unfold max_depth. lia.
Qed.
Lemma seal_signed_total : forall E rnd m sk keys a sa ssk, crypto_ok E -> crypto_total E -> rand_ok rnd -> usable a ->
  jh_alg (m_jwm m) = Some (wrap_name a) -> String.length sk = 32 -> dh_to (m_did m) <> [] ->
  (m_flat_jwe m = true -> List.length (dh_to (m_did m)) = 1) -> (forall l, keys = Some l -> List.length l = List.length (dh_to (m_did m))) ->
  (forall k dest, nth_error (dh_to (m_did m)) k = Some dest -> exists key, known_key E dest (given_key keys k) key /\ 32 <= String.length key) ->
  (forall msg, sig_sign E sa ssk msg <> None) ->
  exists text, seal_signed E rnd m sk keys sa ssk = Ok text.
Proof.
  intros E rnd m sk keys a sa ssk HC HT HR HU HA HL HTo HF HKL HK HSi. destruct (sig_sign E sa ssk (sign_input (as_jws m sa))) as [s|] eqn:ES; [|now elim (HSi _ ES)].
  rewrite (seal_signed_seals _ _ _ _ _ _ _ _ ES). now apply (seal_total E rnd _ sk keys a).
Qed.
Lemma routed_total : forall E rnd1 rnd2 uuid m sk keys a mediator mkey, crypto_ok E -> crypto_total E -> rand_ok rnd1 -> rand_ok rnd2 -> usable a ->
  jh_alg (m_jwm m) = Some (wrap_name a) -> String.length sk = 32 -> dh_to (m_did m) <> [] ->
  (m_flat_jwe m = true -> List.length (dh_to (m_did m)) = 1) -> (forall l, keys = Some l -> List.length l = List.length (dh_to (m_did m))) ->
  (forall k dest, nth_error (dh_to (m_did m)) k = Some dest -> exists key, known_key E dest (given_key keys k) key /\ 32 <= String.length key) ->
  mediator <> "" -> (exists key, known_key E mediator mkey key /\ 32 <= String.length key) ->
  exists text, routed_by E rnd1 rnd2 uuid m sk keys mediator mkey = Ok text.
Proof.
  intros E rnd1 rnd2 uuid m sk keys a mediator mkey HC HT HR1 HR2 HU HA HL HTo HF HKL HK HM HMK.
  destruct (seal_total E rnd1 m sk keys a HC HT HR1 HU HA HL HTo HF HKL HK) as [inner HI].
  unfold routed_by.
  assert (EA : crypter_of (m_jwm m) = Ok a). { unfold crypter_of. rewrite HA. now apply crypto_alg_of_ok. }
  rewrite EA. cbn [rbind]. unfold first_to. destruct (dh_to (m_did m)) as [|next rest] eqn:ET; [now elim HTo|]. cbn [rbind]. rewrite HI. cbn [rbind].
  unfold set_body. rewrite parse_print by (apply rust_value_wf, mediated_value). cbn [oerr rbind].
  rewrite (value_of_canon (rt E 0) max_depth); [|apply rust_canon; [apply mediated_value|apply mediated_stable]|].
  2:{ pose proof (mediated_depth (with_payload (mediated_new next) inner)). unfold max_depth. lia. }
  cbn [oerr rbind].
  change (set_typ (as_jwe (resolve E) (set_from (set_to (message_new uuid) [mediator]) (or_empty (dh_from (m_did m)))) a mkey) DidCommForward)
    with (outer_shell E uuid (or_empty (dh_from (m_did m))) a mediator mkey).
  set (from := or_empty (dh_from (m_did m))).
  pose proof (outer_shell_did E uuid from a mediator mkey) as HD.
  assert (HFil : filter non_empty [mediator] = [mediator]) by (cbn; unfold non_empty; destruct (String.eqb_spec mediator ""); [contradiction|reflexivity]). rewrite HFil in HD.
  destruct (outer_shell_rest E uuid from a mediator mkey) as [_ [R2 [_ [_ [_ [_ [_ R8]]]]]]].
  apply (seal_total E rnd2 _ sk (Some [mkey]) a HC HT HR2 HU).
  - exact (R8 HU).
  - exact HL.
  - cbn [with_body m_did]. rewrite HD. discriminate.
  - cbn [with_body m_flat_jwe]. rewrite R2. discriminate.
  - intros l Hl. apply some_inj in Hl. subst l. cbn [with_body m_did]. rewrite HD. reflexivity.
  - intros k dest Hk. cbn [with_body m_did] in Hk. rewrite HD in Hk. cbn [dh_with_from dh_with_to dh_to] in Hk. destruct k as [|k]; [|destruct k; discriminate].
    apply some_inj in Hk. subst dest. exact HMK.
Qed.

(** The body decodes to what was sent. *)
Lemma de_bytes_json : forall s, de_bytes (JArr (bytes_json s)) = Some s.
Proof.
  intros s. unfold de_bytes. assert (H : de_vec de_u8 (JArr (bytes_json s)) = Some (map code (list_ascii_of_string s))).
  { cbn [de_vec]. induction s as [|c s IH]; [reflexivity|]. cbn [bytes_json map list_ascii_of_string all_some]. unfold de_u8 at 1.
    rewrite de_uint_jnat by (pose proof (code_lt c); lia). cbn [obind]. now rewrite IH. }
  rewrite H. f_equal. rewrite map_map. rewrite (map_ext _ (fun x => x)) by (intros c; apply chr_code). rewrite map_id. apply string_of_list_ascii_of_string.
Qed.
Lemma de_mediated_ser : forall md, de_mediated (ser_mediated md) = Some md.
Proof.
  intros [n p]. unfold de_mediated, ser_mediated. cbn [md_next md_payload]. change (view ["next"; "payloads~attach"] ?j) with (match j with JObj es => Some (member es) | _ => None end).
  cbn [obind]. change (member _ "next") with (Some (Got (jstr n))). change (member _ "payloads~attach") with (Some (Got (JArr (bytes_json p)))).
  cbn [dreq obind]. change (de_string (jstr n)) with (Some n). cbn [obind]. rewrite de_bytes_json. reflexivity.
Qed.
