(** What everybody can do with a message on its way through mediators: C81. *)

From Coq Require Import Ascii String Arith ZArith NArith List Bool Permutation Lia.
From Verif Require Import Bytes BytesFacts Base64 Base64Facts Utf8 Utf8Facts Json JsonFacts Value ValueFacts Types Serde SerdeFacts
  Message Attach ChaCha Sha256 Aead Envelope Spec SpecFacts DecodeFacts PlainFacts CodecFacts SetterFacts SpecText CryptoLaws Examples PropPlain
  SpecSign HeaderFacts SignFacts SignFacts2 PropSign SpecSeal SealFacts SealFacts2 SealFacts3 PropSeal SpecRoute RouteFacts PropRoute KeyFacts PropKey AeadFacts AeadFacts2 SignSize PrimFacts3
  PropAead Float PropFloat SpecEnv SameFacts3 Curve CurveFacts PropCurve PropWhole PropSwap PropOnion.
Import ListNotations.
Local Open Scope nat_scope.
Local Open Scope string_scope.

(** ** Peeling and rewriting *)

(** Somebody with the key [cek] and no secret opens the text, which is on its way to [did], with the algorithm that its header names, and finds to whom
    the rest is to be sent, and the rest; and so on, until [inner], for [dest], is left. *)
Inductive peeled (E : env) (cek : string) : list (string * crypto_algorithm) -> string -> string -> string -> string -> Prop :=
| peeled_done : forall dest inner, peeled E cek [] dest inner dest inner
| peeled_step : forall did a r text next payload dest inner,
    (forall k1 k2, exists f, decrypt (rt E k1) (rt E k2) text (decrypter E a) cek = Ok f /\ dh_to (m_did f) = [did] /\ forwards (m_body f) next payload) ->
    peeled E cek r next payload dest inner -> peeled E cek ((did, a) :: r) did text dest inner.
(** Somebody with the key [cek] puts the text [new] in the place of the innermost one: opens the outermost envelope, does the same to what is in it, and
    puts a forward message with the result into the envelope. *)
Inductive rewritten (E : env) (cek new : string) : list crypto_algorithm -> string -> string -> Prop :=
| rewritten_here : forall text, rewritten E cek new [] text new
| rewritten_inside : forall a r text k1 k2 f next payload payload' q text', decrypt (rt E k1) (rt E k2) text (decrypter E a) cek = Ok f -> forwards (m_body f) next payload ->
    rewritten E cek new r payload payload' -> sendable E q -> avoids envelope_names (dh_other (m_did q)) -> jh_typ (m_jwm q) <> DidCommJws -> forwards (m_body q) next payload' ->
    replaced E a cek text (as_raw_json q) = Some text' -> rewritten E cek new (a :: r) text text'.

(** ** Facts *)

Lemma onion_snoc : forall E from sk hops h next inner, onion E from sk (hops ++ [h])%list next inner =
  let? t := onion E from sk hops next inner in wrap_one E from sk h (last (map hop_did hops) next) t.
Proof.
  intros E from sk hops h. induction hops as [|g hops IH]; intros next inner.
  - cbn [app onion map last rbind]. destruct (wrap_one E from sk h next inner); reflexivity.
  - cbn [app onion map]. rewrite last_cons. destruct (wrap_one E from sk g next inner) as [t| |]; [|reflexivity|reflexivity]. cbn [rbind]. apply IH.
Qed.
Lemma wrap_usable : forall E from sk h next inner text, wrap_one E from sk h next inner = Ok text -> usable (hop_alg h).
Proof.
  intros E from sk h next inner text H EQ. rewrite wrap_ok in H. apply seal_text in H. destruct H as [a [rs [sh [c [HU [HA _]]]]]].
  cbn [with_body m_jwm] in HA. revert HA. rewrite EQ. unfold outer_shell, as_jwe. rewrite set_to_filter.
  destruct (hop_key h) as [k|]; [|cbn [set_from with_did m_did dh_from dh_with_from]; destruct (resolve E from)]; destruct a; cbn; intros HA; try discriminate; now elim HU.
Qed.
(** One envelope for a mediator, as a message. *)
Lemma wrap_shape : forall E from sk h next inner text, resolved_ids E -> rust_string (hop_uuid h) -> rust_string (hop_did h) -> rust_string next -> rust_string from ->
  wrap_one E from sk h next inner = Ok text ->
  exists p, sendable E p /\ few_custom (m_jwm p) /\ jh_alg (m_jwm p) = Some (wrap_name (hop_alg h)) /\ usable (hop_alg h) /\ avoids envelope_names (dh_other (m_did p)) /\
    jh_typ (m_jwm p) <> DidCommJws /\ dh_from (m_did p) = Some from /\ dh_to (m_did p) = [hop_did h] /\ m_body p = ser_mediated {| md_next := next; md_payload := inner |} /\
    seal E (hop_rnd h) p sk (Some [hop_key h]) = Ok text.
Proof.
  intros E from sk h next inner text HI U1 U2 U3 U4 H. pose proof (wrap_did _ _ _ _ _ _ _ H) as HM. pose proof (wrap_usable _ _ _ _ _ _ _ H) as HU. rewrite wrap_ok in H.
  pose proof (outer_sendable E (hop_uuid h) from (hop_alg h) (hop_did h) (hop_key h) {| md_next := next; md_payload := inner |} HI U1 U4 U2 HM U3) as HSend.
  pose proof (outer_shell_did E (hop_uuid h) from (hop_alg h) (hop_did h) (hop_key h)) as HD.
  assert (HFil : filter non_empty [hop_did h] = [hop_did h]) by (cbn; unfold non_empty; destruct (String.eqb_spec (hop_did h) ""); [contradiction|reflexivity]). rewrite HFil in HD.
  destruct (outer_shell_rest E (hop_uuid h) from (hop_alg h) (hop_did h) (hop_key h)) as [_ [_ [_ [_ [R5 [_ [_ R8]]]]]]]. specialize (R8 HU).
  pose proof (shell_few E (hop_uuid h) from (hop_alg h) (hop_did h) (hop_key h)) as HF.
  revert HSend HD R5 R8 HF H. generalize (outer_shell E (hop_uuid h) from (hop_alg h) (hop_did h) (hop_key h)). intros o HSend HD R5 R8 HF H.
  exists (with_body o (ser_mediated {| md_next := next; md_payload := inner |})). cbn [with_body m_jwm m_did m_body].
  split; [exact HSend|]. split; [exact HF|]. split; [exact R8|]. split; [exact HU|]. split; [rewrite HD; intros k []|]. split; [rewrite R5; discriminate|].
  split; [now rewrite HD|]. split; [now rewrite HD|]. split; [reflexivity|exact H].
Qed.
(** What everybody reads in it. *)
Lemma wrap_opened : forall E from sk h next inner text k1 k2, env_ok E -> crypto_ok E -> resolved_ids E ->
  rust_string (hop_uuid h) -> rust_string (hop_did h) -> rust_string next -> rust_string from -> wrap_one E from sk h next inner = Ok text ->
  exists f, decrypt (rt E k1) (rt E k2) text (decrypter E (hop_alg h)) seal_cek = Ok f /\ dh_to (m_did f) = [hop_did h] /\ forwards (m_body f) next inner.
Proof.
  intros E from sk h next inner text k1 k2 HE HC HI U1 U2 U3 U4 H.
  destruct (wrap_shape E from sk h next inner text HI U1 U2 U3 U4 H) as [p [P1 [P2 [P3 [P4 [_ [_ [_ [P8 [P9 P10]]]]]]]]]].
  destruct (seal_decrypt E (hop_rnd h) p sk (Some [hop_key h]) text (hop_alg h) k1 k2 HE HC P1 P2 P3 P4 P10) as [rs [_ HD]].
  eexists. split; [exact HD|]. split; [exact P8|]. change (forwards (m_body p) next inner). rewrite P9.
  apply (ser_mediated_forwards {| md_next := next; md_payload := inner |}).
Qed.
(** What its mediator gets when somebody has put another forward message into it. *)
Lemma wrap_replaced : forall E from sk h next inner text msk spk q text' new_next new, env_ok E -> crypto_ok E -> resolved_ids E -> rust_string from -> rust_string next ->
  hop_ok E h msk -> known_key E from spk (x_pub E sk) -> wrap_one E from sk h next inner = Ok text ->
  sendable E q -> avoids envelope_names (dh_other (m_did q)) -> jh_typ (m_jwm q) <> DidCommJws -> forwards (m_body q) new_next new ->
  replaced E (hop_alg h) seal_cek text (as_raw_json q) = Some text' ->
  exists f, (forall signing, receive E text' (Some msk) spk signing = Ok f) /\ forwards (m_body f) new_next new.
Proof.
  intros E from sk h next inner text msk spk q text' new_next new HE HC HI U1 U2 [HR [V1 [V2 [L HK]]]] HSK H HQ HQA HQT HQF HT.
  destruct (wrap_shape E from sk h next inner text HI V1 V2 U2 U1 H) as [p [P1 [P2 [P3 [P4 [_ [_ [P7 [P8 [_ P10]]]]]]]]]].
  eexists. split.
  - intros signing. apply (replaced_received E (hop_rnd h) p sk (Some [hop_key h]) text (hop_alg h) 0 (hop_did h) msk spk signing from q text' HE HC HR P1 P2 P3 P4 P7 P10); try assumption.
    + now rewrite P8.
    + apply closed_first.
  - exact HQF.
Qed.
Lemma last_rust : forall hops next, Forall (fun h => rust_string (hop_did h)) hops -> rust_string next -> rust_string (last (map hop_did hops) next).
Proof.
  intros hops next H. revert next. induction H as [|h hops H1 H2 IH]; intros next HN; [exact HN|]. cbn [map]. rewrite last_cons. now apply IH.
Qed.
Lemma last_snoc : forall A l (a d : A), last (l ++ [a])%list d = a.
Proof. intros A l a d. induction l as [|b l IH]; [reflexivity|]. cbn [app]. destruct l; [reflexivity|exact IH]. Qed.

Lemma opened_received : forall E rnd m sk keys text alg a k1 k2, env_ok E -> crypto_ok E -> sendable E m -> few_custom (m_jwm m) ->
  jh_alg (m_jwm m) = Some alg -> In (alg, a) wrap_table -> seal E rnd m sk keys = Ok text ->
  exists m', decrypt (rt E k1) (rt E k2) text (decrypter E a) seal_cek = Ok m' /\ received m m'.
Proof.
  intros E rnd m sk keys text alg a k1 k2 HE HC HS HF HA HI HT. apply crypto_alg_of_table, crypto_alg_of_ok in HI. destruct HI as [HU ->].
  destruct (seal_decrypt E rnd m sk keys text a k1 k2 HE HC HS HF HA HU HT) as [rs [HL HD]]. eexists. split; [exact HD|]. split; [|split].
  - destruct (re_message_same E k2 (with_recipients m (Some rs)) HE) as [H1 [H2 [_ [H3 H4]]]]. split; [exact H1|]. split; [exact H2|]. split; [exact H3|exact H4].
  - apply re_message_flags.
  - eexists. split; [reflexivity|]. now rewrite map_length.
Qed.
Lemma onion_peeled : forall E from sk hops next inner text, env_ok E -> crypto_ok E -> resolved_ids E ->
  rust_string from -> rust_string next -> Forall (fun h => rust_string (hop_uuid h) /\ rust_string (hop_did h)) hops -> onion E from sk hops next inner = Ok text ->
  peeled E seal_cek (rev (map (fun h => (hop_did h, hop_alg h)) hops)) (last (map hop_did hops) next) text next inner.
Proof.
  intros E from sk hops next inner text HE HC HI U1 U2 HF. revert text.
  induction hops as [|h hops IH] using rev_ind; intros text H.
  - apply ok_inj in H. subst text. apply peeled_done.
  - rewrite onion_snoc in H. destruct (onion E from sk hops next inner) as [t| |]; [|discriminate|discriminate]. cbn [rbind] in H.
    apply Forall_app in HF. destruct HF as [HF1 HF2]. apply Forall_inv in HF2. destruct HF2 as [V1 V2]. specialize (IH HF1 t eq_refl).
    assert (HL : rust_string (last (map hop_did hops) next)) by (apply last_rust; [|exact U2]; revert HF1; apply Forall_impl; tauto).
    rewrite !map_app, rev_app_distr. cbn [map rev app]. rewrite last_snoc.
    apply (peeled_step E seal_cek (hop_did h) (hop_alg h) _ text (last (map hop_did hops) next) t); [|exact IH].
    intros k1 k2. exact (wrap_opened E from sk h _ t text k1 k2 HE HC HI V1 V2 HL U1 H).
Qed.
Lemma onion_rewritten : forall E from sk sender hops secrets next inner text new text', env_ok E -> crypto_ok E -> resolved_ids E -> rust_string from -> rust_string next ->
  known_key E from sender (x_pub E sk) -> Forall2 (hop_ok E) hops secrets -> onion E from sk hops next inner = Ok text ->
  rewritten E seal_cek new (rev (map hop_alg hops)) text text' ->
  relayed E sender (rev (combine (map hop_did hops) secrets)) (last (map hop_did hops) next) text' next new.
Proof.
  intros E from sk sender hops secrets next inner text new text' HE HC HI U1 U2 HSK. revert secrets text text'.
  induction hops as [|h hops IH] using rev_ind; intros secrets text text' HF H HW.
  - inversion HW; subst. inversion HF; subst. apply relayed_done.
  - rewrite onion_snoc in H. destruct (onion E from sk hops next inner) as [t| |]; [|discriminate|discriminate]. cbn [rbind] in H.
    apply Forall2_app_inv_l in HF. destruct HF as [s1 [s2 [HF1 [HF2 ->]]]]. inversion HF2 as [|h' msk l1 l2 HO HF3 E1 E2]; subst. inversion HF3; subst. clear HF2 HF3.
    assert (HL : rust_string (last (map hop_did hops) next)).
    { apply last_rust; [|exact U2]. clear - HF1. induction HF1 as [|x y l l' H1 H2 IH]; constructor; [apply H1|exact IH]. }
    rewrite map_app, rev_app_distr in HW. cbn [map rev app] in HW.
    inversion HW as [|a r tx k1 k2 f nx payload payload' q tx' W1 W2 W3 W4 W5 W6 W7 W8]; subst.
    destruct HO as [HR [V1 [V2 [L HK]]]].
    destruct (wrap_opened E from sk h _ t text k1 k2 HE HC HI V1 V2 HL U1 H) as [f' [F1 [_ F2]]].
    rewrite F1 in W1. apply ok_inj in W1. subst f'. destruct (C21_payload_unique _ _ _ _ _ W2 F2) as [-> ->].
    specialize (IH s1 t payload' HF1 eq_refl W3).
    destruct (wrap_replaced E from sk h _ t text msk sender q text' _ _ HE HC HI U1 HL (conj HR (conj V1 (conj V2 (conj L HK)))) HSK H W4 W5 W6 W7 W8) as [g [G1 G2]].
    rewrite map_app. cbn [map]. rewrite last_snoc.
    assert (HC2 : combine (map hop_did hops ++ [hop_did h]) (s1 ++ [msk]) = (combine (map hop_did hops) s1 ++ [(hop_did h, msk)])%list).
    { assert (HLen : List.length (map hop_did hops) = List.length s1) by (rewrite map_length; clear - HF1; induction HF1; cbn [List.length]; congruence). clear - HLen. revert s1 HLen.
      induction (map hop_did hops) as [|x l IH]; intros [|y s1] HLen; try discriminate; [reflexivity|]. cbn [app combine]. f_equal. apply IH. now injection HLen. }
    rewrite HC2, rev_app_distr. cbn [rev app]. exact (relayed_step E sender (hop_did h) msk _ text' g _ payload' next new G1 G2 IH).
Qed.

Lemma onion_rewritable : forall E from sk hops next inner text new, env_ok E -> crypto_ok E -> crypto_total E -> resolved_ids E ->
  rust_string from -> rust_string next -> Forall (fun h => rand_ok (hop_rnd h) /\ rust_string (hop_uuid h) /\ rust_string (hop_did h)) hops -> onion E from sk hops next inner = Ok text ->
  exists text', rewritten E seal_cek new (rev (map hop_alg hops)) text text'.
Proof.
  intros E from sk hops next inner text new HE HC HTo HI U1 U2 HF. revert text.
  induction hops as [|h hops IH] using rev_ind; intros text H; [exists new; apply rewritten_here|].
  rewrite onion_snoc in H. destruct (onion E from sk hops next inner) as [t| |]; [|discriminate|discriminate]. cbn [rbind] in H.
  apply Forall_app in HF. destruct HF as [HF1 HF2]. apply Forall_inv in HF2. destruct HF2 as [HR [V1 V2]]. destruct (IH HF1 t eq_refl) as [t' HW].
  assert (HL : rust_string (last (map hop_did hops) next)) by (apply last_rust; [|exact U2]; revert HF1; apply Forall_impl; tauto).
  destruct (wrap_opened E from sk h _ t text 0 0 HE HC HI V1 V2 HL U1 H) as [f [F1 [_ F2]]].
  destruct (wrap_shape E from sk h _ t text HI V1 V2 HL U1 H) as [p [P1 [P2 [P3 [P4 [P5 [P6 [P7 [P8 [P9 P10]]]]]]]]]].
  pose proof (wrap_did _ _ _ _ _ _ _ H) as HM.
  pose proof (outer_sendable E (hop_uuid h) from (hop_alg h) (hop_did h) (hop_key h) {| md_next := last (map hop_did hops) next; md_payload := t' |} HI V1 U1 V2 HM HL) as HQ.
  pose proof (outer_shell_did E (hop_uuid h) from (hop_alg h) (hop_did h) (hop_key h)) as HD.
  destruct (outer_shell_rest E (hop_uuid h) from (hop_alg h) (hop_did h) (hop_key h)) as [_ [_ [_ [_ [R5 _]]]]].
  revert HQ HD R5. generalize (outer_shell E (hop_uuid h) from (hop_alg h) (hop_did h) (hop_key h)). intros o HQ HD R5.
  destruct (C74_possible E (hop_rnd h) p sk (Some [hop_key h]) text (wrap_name (hop_alg h)) (hop_alg h) seal_cek
    (as_raw_json (with_body o (ser_mediated {| md_next := last (map hop_did hops) next; md_payload := t' |}))) HTo HR P3) as [text' HT].
  { apply crypto_alg_of_table, crypto_alg_of_ok. now split. }
  { exact P10. }
  { exact seal_cek_length. }
  exists text'. rewrite map_app, rev_app_distr. cbn [map rev app].
  apply (rewritten_inside E seal_cek new (hop_alg h) _ text 0 0 f (last (map hop_did hops) next) t t' _ text' F1 F2 HW HQ).
  - cbn [with_body m_did]. rewrite HD. intros k [].
  - cbn [with_body m_jwm]. rewrite R5. discriminate.
  - apply (ser_mediated_forwards {| md_next := last (map hop_did hops) next; md_payload := t' |}).
  - exact HT.
Qed.

(** ** C81 *)

(** One key, for all messages, chains and keys of senders and mediators, opens the envelopes of all mediators, and the one of the recipient: everybody on the way can
    read who the mediators are, who the message is for, and the message. No secret is used. *)
Theorem C81_read : exists cek, String.length cek = 32 /\ forall E from sk hops rnd m keys alg a next inner text, env_ok E -> crypto_ok E -> resolved_ids E ->
  rust_string from -> rust_string next -> Forall (fun h => rust_string (hop_uuid h) /\ rust_string (hop_did h)) hops ->
  sendable E m -> few_custom (m_jwm m) -> jh_alg (m_jwm m) = Some alg -> In (alg, a) wrap_table -> seal E rnd m sk keys = Ok inner -> onion E from sk hops next inner = Ok text ->
  peeled E cek (rev (map (fun h => (hop_did h, hop_alg h)) hops)) (last (map hop_did hops) next) text next inner /\
  forall k1 k2, exists m', decrypt (rt E k1) (rt E k2) inner (decrypter E a) cek = Ok m' /\ received m m'.
Proof.
  exists seal_cek. split; [exact seal_cek_length|]. intros E from sk hops rnd m keys alg a next inner text HE HC HI U1 U2 HF HS HFe HA HIn HSe H.
  split; [now apply (onion_peeled E from sk)|]. intros k1 k2. now apply (opened_received E rnd m sk keys inner alg a k1 k2).
Qed.
(** For one mediator and routed_by. *)
Theorem C81_routed_by : exists cek, String.length cek = 32 /\ forall E rnd1 rnd2 uuid m sk keys mediator mkey alg a text, env_ok E -> crypto_ok E -> resolved_ids E ->
  rust_string uuid -> rust_string mediator -> sendable E m -> few_custom (m_jwm m) -> jh_alg (m_jwm m) = Some alg -> In (alg, a) wrap_table ->
  routed_by E rnd1 rnd2 uuid m sk keys mediator mkey = Ok text -> exists next rest inner, dh_to (m_did m) = next :: rest /\
  forall k1 k2, exists f, decrypt (rt E k1) (rt E k2) text (decrypter E a) cek = Ok f /\ dh_to (m_did f) = [mediator] /\ forwards (m_body f) next inner /\
    exists m', decrypt (rt E k1) (rt E k2) inner (decrypter E a) cek = Ok m' /\ received m m'.
Proof.
  exists seal_cek. split; [exact seal_cek_length|]. intros E rnd1 rnd2 uuid m sk keys mediator mkey alg a text HE HC HI U1 U2 HS HF HA HIn H.
  apply C79_routed_by in H. destruct H as [alg' [a' [next [rest [inner [HA' [HIn' [HT [HSe H]]]]]]]]]. rewrite HA in HA'. apply some_inj in HA'. subst alg'.
  apply crypto_alg_of_table in HIn, HIn'. rewrite HIn in HIn'. apply ok_inj in HIn'. subst a'. apply crypto_alg_of_table in HIn.
  exists next, rest, inner. split; [exact HT|]. cbn [onion] in H.
  assert (HR : forall x, In x (did_strings (m_did m)) -> rust_string x).
  { pose proof (sd_rust E m HS) as HRm. apply rm_strings in HRm. unfold message_strings in HRm. rewrite Forall_forall in HRm.
    intros x Hx. apply HRm. apply in_or_app. right. apply in_or_app. now left. }
  assert (U3 : rust_string next) by (apply HR; unfold did_strings; rewrite !in_app_iff, HT; cbn; tauto).
  assert (U4 : rust_string (or_empty (dh_from (m_did m)))).
  { destruct (dh_from (m_did m)) as [x|] eqn:EF; [|reflexivity]. apply HR. unfold did_strings. rewrite !in_app_iff, EF. cbn. tauto. }
  set (h := {| hop_did := mediator; hop_key := mkey; hop_alg := a; hop_uuid := uuid; hop_rnd := rnd2 |}) in *.
  destruct (wrap_one E (or_empty (dh_from (m_did m))) sk h next inner) as [t| |] eqn:EW; [|discriminate|discriminate]. cbn [rbind] in H. apply ok_inj in H. subst t.
  intros k1 k2. destruct (wrap_opened E _ sk h next inner text k1 k2 HE HC HI U1 U2 U3 U4 EW) as [f [F1 [F2 F3]]].
  exists f. split; [exact F1|]. split; [exact F2|]. split; [exact F3|]. now apply (opened_received E rnd1 m sk keys inner alg a k1 k2).
Qed.
(** With the same key everybody on the way can put another text in the place of the innermost envelope. All mediators open what they are sent as before and pass the other
    text on to the recipient. *)
Theorem C81_rewritten : exists cek, String.length cek = 32 /\ forall E from sk sender hops secrets next inner text new text', env_ok E -> crypto_ok E -> resolved_ids E ->
  rust_string from -> rust_string next -> known_key E from sender (x_pub E sk) -> Forall2 (hop_ok E) hops secrets -> onion E from sk hops next inner = Ok text ->
  rewritten E cek new (rev (map hop_alg hops)) text text' ->
  relayed E sender (rev (combine (map hop_did hops) secrets)) (last (map hop_did hops) next) text' next new.
Proof.
  exists seal_cek. split; [exact seal_cek_length|]. intros E from sk sender hops secrets next inner text new text' HE HC HI U1 U2 HSK HF H HW.
  exact (onion_rewritten E from sk sender hops secrets next inner text new text' HE HC HI U1 U2 HSK HF H HW).
Qed.
(** So the recipient at the end gets, as a message of the sender, whatever somebody on the way wanted: [q]. *)
Theorem C81_forged : exists cek, String.length cek = 32 /\ forall E from sk sender hops secrets rnd m keys alg a inner text i dest rsk sender2 q new text', env_ok E -> crypto_ok E -> resolved_ids E ->
  rand_ok rnd -> sendable E m -> few_custom (m_jwm m) -> jh_alg (m_jwm m) = Some alg -> In (alg, a) wrap_table -> dh_from (m_did m) = Some from ->
  seal E rnd m sk keys = Ok inner -> nth_error (dh_to (m_did m)) i = Some dest -> onion E from sk hops dest inner = Ok text ->
  Forall2 (hop_ok E) hops secrets -> String.length rsk = 32 ->
  known_key E dest (given_key keys i) (x_pub E rsk) -> known_key E from sender (x_pub E sk) -> known_key E from sender2 (x_pub E sk) -> others_closed E rnd m sk keys rsk i ->
  sendable E q -> avoids envelope_names (dh_other (m_did q)) -> jh_typ (m_jwm q) <> DidCommJws ->
  replaced E a cek inner (as_raw_json q) = Some new -> rewritten E cek new (rev (map hop_alg hops)) text text' ->
  relayed E sender (rev (combine (map hop_did hops) secrets)) (last (map hop_did hops) dest) text' dest new /\
  exists m', (forall signing, receive E new (Some rsk) sender2 signing = Ok m') /\ same_message q m'.
Proof.
  exists seal_cek. split; [exact seal_cek_length|].
  intros E from sk sender hops secrets rnd m keys alg a inner text i dest rsk sender2 q new text' HE HC HI HR HS HFe HA HIn HFr HSe HN H HF L HK HSK HSK2 HB HQ HQA HQT HRep HW.
  assert (HIs : forall x, In x (did_strings (m_did m)) -> rust_string x).
  { pose proof (sd_rust E m HS) as HRm. apply rm_strings in HRm. unfold message_strings in HRm. rewrite Forall_forall in HRm.
    intros x Hx. apply HRm. apply in_or_app. right. apply in_or_app. now left. }
  assert (U1 : rust_string from) by (apply HIs; unfold did_strings; rewrite !in_app_iff; rewrite HFr; cbn; tauto).
  assert (U2 : rust_string dest) by (apply HIs; unfold did_strings; rewrite !in_app_iff; apply nth_error_In in HN; tauto).
  split; [exact (onion_rewritten E from sk sender hops secrets dest inner text new text' HE HC HI U1 U2 HSK HF H HW)|].
  apply crypto_alg_of_table, crypto_alg_of_ok in HIn. destruct HIn as [HU ->]. eexists. split.
  - intros signing. exact (replaced_received E rnd m sk keys inner a i dest rsk sender2 signing from q new HE HC HR HS HFe HA HU HFr HSe HN L HK HSK2 HB HQ HQA HQT HRep).
  - eapply same_message_trans; [|apply re_message_same; exact HE]. now apply re_message_same.
Qed.
(** It is always possible. *)
Theorem C81_possible : exists cek, String.length cek = 32 /\ forall E from sk hops next inner text new, env_ok E -> crypto_ok E -> crypto_total E -> resolved_ids E ->
  rust_string from -> rust_string next -> Forall (fun h => rand_ok (hop_rnd h) /\ rust_string (hop_uuid h) /\ rust_string (hop_did h)) hops -> onion E from sk hops next inner = Ok text ->
  exists text', rewritten E cek new (rev (map hop_alg hops)) text text'.
Proof.
  exists seal_cek. split; [exact seal_cek_length|]. exact onion_rewritable.
Qed.
(** With the key agreement and the ciphers of the crate. *)
Theorem C81_real : exists cek, String.length cek = 32 /\ forall E from sk hops next inner text, orders_ok E -> resolved_ids E ->
  rust_string from -> rust_string next -> Forall (fun h => rust_string (hop_uuid h) /\ rust_string (hop_did h)) hops -> onion (whole E) from sk hops next inner = Ok text ->
  peeled (whole E) cek (rev (map (fun h => (hop_did h, hop_alg h)) hops)) (last (map hop_did hops) next) text next inner /\
  forall sender secrets new text', known_key E from sender (x25519_base sk) -> 
    Forall2 (fun h msk => rand_ok (hop_rnd h) /\ rust_string (hop_uuid h) /\ rust_string (hop_did h) /\ String.length msk = 32 /\ known_key E (hop_did h) (hop_key h) (x25519_base msk)) hops secrets ->
    rewritten (whole E) cek new (rev (map hop_alg hops)) text text' ->
    relayed (whole E) sender (rev (combine (map hop_did hops) secrets)) (last (map hop_did hops) next) text' next new.
Proof.
  exists seal_cek. split; [exact seal_cek_length|]. intros E from sk hops next inner text HO HI U1 U2 HF H. destruct (C69_lawful E HO) as [HE HC].
  split; [exact (onion_peeled (whole E) from sk hops next inner text HE HC HI U1 U2 HF H)|]. intros sender secrets new text' HSK HH HW.
  exact (onion_rewritten (whole E) from sk sender hops secrets next inner text new text' HE HC HI U1 U2 HSK HH H HW).
Qed.

(** ** Cases *)

(** The chain of three mediators of C79. *)
Lemma ex_peeled : forall inner text, onion toy "did:toy:alice" alice_key ex_hops "did:toy:bob" inner = Ok text ->
  peeled toy seal_cek [("did:toy:first", XC20P); ("did:toy:middle", A256GCM); ("did:toy:last", XC20P)] "did:toy:first" text "did:toy:bob" inner.
Proof.
  intros inner text HT. apply (onion_peeled toy "did:toy:alice" alice_key ex_hops "did:toy:bob" inner text toy_env toy_crypto toy_ids eq_refl eq_refl); [|exact HT]. repeat constructor.
Qed.
Lemma ex_rewritable : forall inner text new, onion toy "did:toy:alice" alice_key ex_hops "did:toy:bob" inner = Ok text ->
  exists text', rewritten toy seal_cek new [XC20P; A256GCM; XC20P] text text'.
Proof.
  intros inner text new HT. apply (onion_rewritable toy "did:toy:alice" alice_key ex_hops "did:toy:bob" inner text new toy_env toy_crypto toy_total toy_ids eq_refl eq_refl); [|exact HT].
  repeat constructor; apply ex_rand_ok.
Qed.
Lemma ex_relayed : forall inner text new text', onion toy "did:toy:alice" alice_key ex_hops "did:toy:bob" inner = Ok text ->
  rewritten toy seal_cek new [XC20P; A256GCM; XC20P] text text' ->
  relayed toy (Some alice_key) [("did:toy:first", srepeat 32 "f"); ("did:toy:middle", srepeat 32 "n"); ("did:toy:last", srepeat 32 "l")] "did:toy:first" text' "did:toy:bob" new.
Proof.
  intros inner text new text' HT HW.
  assert (HH : Forall2 (hop_ok toy) ex_hops [srepeat 32 "l"; srepeat 32 "n"; srepeat 32 "f"]) by (repeat constructor; try apply ex_rand_ok; left; reflexivity).
  exact (onion_rewritten toy "did:toy:alice" alice_key (Some alice_key) ex_hops _ "did:toy:bob" inner text new text' toy_env toy_crypto toy_ids eq_refl eq_refl (or_introl eq_refl) HH HT HW).
Qed.
Lemma ex_replaced : forall a inner new, In a [XC20P; A256GCM] -> seal toy ex_rand (ex_jwe a) alice_key (Some ex_keys) = Ok inner ->
  replaced toy a seal_cek inner (as_raw_json ex_small) = Some new ->
  exists m', receive toy new (Some bob_key) (Some alice_key) None = Ok m' /\ same_message ex_small m'.
Proof.
  intros a inner new HA HS HN1.
  assert (HJ : jh_alg (m_jwm (ex_jwe a)) = Some (wrap_name a)) by (destruct HA as [<-|[<-|[]]]; reflexivity).
  assert (HU : usable a) by (destruct HA as [<-|[<-|[]]]; discriminate).
  assert (HFr : dh_from (m_did (ex_jwe a)) = Some "did:toy:alice") by (destruct HA as [<-|[<-|[]]]; reflexivity).
  assert (HN : nth_error (dh_to (m_did (ex_jwe a))) 0 = Some "did:toy:bob") by (destruct HA as [<-|[<-|[]]]; reflexivity).
  eexists. split.
  - apply (replaced_received toy ex_rand (ex_jwe a) alice_key (Some ex_keys) inner a 0 "did:toy:bob" bob_key (Some alice_key) None "did:toy:alice" ex_small new toy_env toy_crypto ex_rand_ok
      (ex_jwe_sendable a) (ex_jwe_few a) HJ HU HFr HS HN).
    + apply srepeat_length.
    + now left.
    + now left.
    + apply closed_first.
    + exact ex_small_sendable.
    + intros k [].
    + discriminate.
    + exact HN1.
  - eapply same_message_trans; [|apply re_message_same; exact toy_env]. apply re_message_same. exact toy_env.
Qed.
(** Somebody reads the message, and Bob gets another one as Alice's. *)
Example C81_example : forall a, In a [XC20P; A256GCM] -> exists cek inner text new text' m1 m2, seal toy ex_rand (ex_jwe a) alice_key (Some ex_keys) = Ok inner /\
  onion toy "did:toy:alice" alice_key ex_hops "did:toy:bob" inner = Ok text /\
  peeled toy cek [("did:toy:first", XC20P); ("did:toy:middle", A256GCM); ("did:toy:last", XC20P)] "did:toy:first" text "did:toy:bob" inner /\
  decrypt (rt toy 0) (rt toy 0) inner (decrypter toy a) cek = Ok m1 /\ received (ex_jwe a) m1 /\
  replaced toy a cek inner (as_raw_json ex_small) = Some new /\ rewritten toy cek new [XC20P; A256GCM; XC20P] text text' /\
  relayed toy (Some alice_key) [("did:toy:first", srepeat 32 "f"); ("did:toy:middle", srepeat 32 "n"); ("did:toy:last", srepeat 32 "l")] "did:toy:first" text' "did:toy:bob" new /\
  receive toy new (Some bob_key) (Some alice_key) None = Ok m2 /\ same_message ex_small m2.
Proof.
  intros a HA. destruct (C79_example a HA) as [inner [text [_ [HS [HT _]]]]].
  assert (HJ : jh_alg (m_jwm (ex_jwe a)) = Some (wrap_name a)) by (destruct HA as [<-|[<-|[]]]; reflexivity).
  assert (HU : usable a) by (destruct HA as [<-|[<-|[]]]; discriminate).
  assert (HIn : In (wrap_name a, a) wrap_table) by (apply crypto_alg_of_table, crypto_alg_of_ok; now split).
  destruct (C74_possible toy ex_rand (ex_jwe a) alice_key (Some ex_keys) inner (wrap_name a) a seal_cek (as_raw_json ex_small) toy_total ex_rand_ok HJ HIn HS seal_cek_length) as [new HN1].
  destruct (ex_rewritable inner text new HT) as [text' HW].
  destruct (opened_received toy ex_rand (ex_jwe a) alice_key (Some ex_keys) inner (wrap_name a) a 0 0 toy_env toy_crypto (ex_jwe_sendable a) (ex_jwe_few a) HJ HIn HS) as [m1 [D1 D2]].
  destruct (ex_replaced a inner new HA HS HN1) as [m2 [R1 R2]].
  pose proof (ex_peeled inner text HT) as HP. pose proof (ex_relayed inner text new text' HT HW) as HR.
  exists seal_cek, inner, text, new, text', m1, m2. repeat (split; [assumption|]). assumption.
Qed.

Print Assumptions C81_read.
Print Assumptions C81_routed_by.
Print Assumptions C81_rewritten.
Print Assumptions C81_forged.
Print Assumptions C81_possible.
Print Assumptions C81_real.
