(** [receive] under other iteration orders. *)

From Coq Require Import Ascii String Arith NArith List Bool Permutation Lia.
From Verif Require Import Bytes BytesFacts Base64 Utf8 Json JsonFacts SpecJson GrammarFacts Value ValueFacts Types Serde Message Envelope Spec SpecFacts SpecText SpecSign SpecSeal SpecKey SpecDecode
  SpecEnv CryptoLaws SerdeFacts DecodeFacts CodecFacts BodyFacts PlainFacts PlainFacts2 SealFacts3 KeyFacts ReadFacts ReadFacts2 ReadFacts3 OrderFacts OrderFacts2 SameFacts.
Import ListNotations.
Local Open Scope string_scope.

(** The same decoding environments up to order. *)
Record similar (R R' : drt) : Prop := { sm_ok : drt_ok R; sm_ok' : drt_ok R'; sm_num : fnorm R = fnorm R' }.
Lemma similar_env : forall E o k, env_ok E -> env_ok (reorder E o) -> similar (rt E k) (rt (reorder E o) k).
Proof. intros E o k H H'. constructor; [now apply env_drt|now apply env_drt|reflexivity]. Qed.

Lemma find_cek_reorder : forall E o e sk pk l acc, find_cek (reorder E o) e sk pk acc l = find_cek E e sk pk acc l.
Proof.
  intros E o e sk pk l. induction l as [|r l IH]; intros acc; [reflexivity|]. cbn [find_cek]. change (decrypt_cek (reorder E o) e sk r pk) with (decrypt_cek E e sk r pk).
  destruct (decrypt_cek E e sk r pk); [reflexivity|apply IH|reflexivity].
Qed.
Lemma check_entries_reorder : forall E o p key l, check_entries (reorder E o) p key l = check_entries E p key l.
Proof.
  intros E o p key l. induction l as [|s l IH]; [reflexivity|]. cbn [check_entries]. change (check_entry (reorder E o) p key s) with (check_entry E p key s).
  destruct (check_entry E p key s) as [[]| |]; [reflexivity|exact IH|reflexivity|reflexivity].
Qed.

(** Messages out of payloads. *)
Lemma slice_order : forall R R' raw, similar R R' -> same_result same_message (oerr (message_from_slice R raw) ESerde) (oerr (message_from_slice R' raw) ESerde).
Proof.
  intros R R' raw [H1 H2 H3]. unfold message_from_slice, parse_slice. destruct (utf8_valid raw) eqn:EU; [|constructor].
  change (same_result same_message (oerr (message_from_str R raw) ESerde) (oerr (message_from_str R' raw) ESerde)).
  destruct (message_from_str R raw) as [m|] eqn:EM.
  - destruct (message_order R R' raw m H1 H2 H3 EM) as [_ [m' [-> S]]]. now constructor.
  - rewrite (message_none_order R R' raw H1 H2 H3 EM). constructor.
Qed.

Lemma calm_close : forall s s', same_signature s s' -> calm_signature s -> close_signature s s'.
Proof. intros s s' [H1 [H2 H3]] HC. split; [now apply few_header_opt|now split]. Qed.
Lemma calm_jws : forall w w', same_jws w w' -> opt_all calm_signature (js_signature w) -> opt_all (Forall calm_signature) (js_signatures w) -> close_jws w w'.
Proof.
  intros w w' [H1 [H2 H3]] C1 C2. split; [exact H1|]. unfold jws_entries. destruct (js_signatures w) as [l|], (js_signatures w') as [l'|]; cbn in H3; try contradiction.
  - constructor. cbn in C2. induction H3 as [|a b l l' H F IH]; constructor; inversion C2; subst; [now apply calm_close|auto].
  - destruct (js_signature w) as [s|], (js_signature w') as [s'|]; cbn in H2; try contradiction; constructor. constructor; [now apply calm_close|constructor].
Qed.
Lemma jws_close_order : forall E R R' text w, similar R R' -> fnorm R = fl E -> calm_envelope E text -> jws_from_str R text = Some w -> exists w', jws_from_str R' text = Some w' /\ close_jws w w'.
Proof.
  intros E R R' text w [H1 H2 H3] HN HC H. destruct (jws_order R R' text w H1 H2 H3 H) as [[j [HD HT]] [w' [HW HS]]]. exists w'. split; [exact HW|].
  destruct (HC j HD) as [_ HC']. destruct (HC' w (jws_text_ext R (rt E 0) j w HN HT)) as [C1 C2]. now apply calm_jws.
Qed.
Lemma verify_order : forall E o R1 R1' R2 R2' text key, similar R1 R1' -> fnorm R1 = fl E -> similar R2 R2' -> calm_envelope E text ->
  same_result same_message (verify E R1 R2 text key) (verify (reorder E o) R1' R2' text key).
Proof.
  intros E o R1 R1' R2 R2' text key S1 HN S2 HC. unfold verify, jws_from_slice, parse_slice. destruct (utf8_valid text); [|constructor].
  change (let! j := parse text in de_jws R1 j) with (jws_from_str R1 text). change (let! j := parse text in de_jws R1' j) with (jws_from_str R1' text).
  destruct (jws_from_str R1 text) as [w|] eqn:EW.
  - destruct (jws_close_order E R1 R1' text w S1 HN HC EW) as [w' [-> [HP HL]]]. cbn [oerr rbind]. inversion HL as [l l' F E1 E2|x E1 E2|E1 E2]; cbn [rbind]; [|constructor|constructor].
    rewrite check_entries_reorder, HP, (check_entries_close E (js_payload w') key l l' F). destruct (check_entries E (js_payload w') key l') as [[]| |]; cbn [rbind]; try constructor.
    destruct (b64_decode (js_payload w')); cbn [oerr rbind]; [|constructor]. now apply slice_order.
  - destruct S1 as [A1 A2 A3]. rewrite (jws_none_order R1 R1' text A1 A2 A3 EW). constructor.
Qed.
Lemma verify_entries_order : forall E o text given l l' i, env_ok E -> env_ok (reorder E o) -> calm_envelope E text -> Forall2 close_signature l l' ->
  same_result (orel same_message) (verify_entries E i text given l) (verify_entries (reorder E o) i text given l').
Proof.
  intros E o text given l l' i HE HE' HC F. revert i. induction F as [|a b l l' H F IH]; intros i; [constructor; exact I|]. cbn [verify_entries].
  rewrite (close_get _ _ _ _ same_alg H), (close_get _ _ _ _ same_kid H). destruct (sig_get b jh_alg); [|apply IH].
  destruct (signing_key given (sig_get b jh_kid)) as [key| |]; cbn [rbind]; [|constructor|constructor].
  destruct (verify_order E o _ _ _ _ text key (similar_env E o (20 + 2 * i) HE HE') eq_refl (similar_env E o (21 + 2 * i) HE HE') HC) as [m m' S|x|]; [now constructor|apply IH|constructor].
Qed.

(** Texts of equal messages. *)
Definition same_print (t t' : string) : Prop := exists m m', t = message_json m /\ t' = message_json m' /\ decoded m /\ decoded m' /\ same_message m m'.
Lemma receive_jws_order : forall E o text given, env_ok E -> env_ok (reorder E o) -> calm E text ->
  same_result same_print (receive_jws E text given) (receive_jws (reorder E o) text given).
Proof.
  intros E o text given HE HE' [HC HM]. unfold receive_jws. set (E' := reorder E o) in *.
  assert (SM : forall k, similar (rt E k) (rt E' k)) by (intros; now apply similar_env).
  destruct (message_from_str (rt E 5) text) as [m|] eqn:EM.
  - destruct (SM 5) as [A1 A2 A3]. destruct (message_order _ _ _ _ A1 A2 A3 EM) as [[j [HD HT]] [m' [-> [S1 [S2 [S3 [S4 S5]]]]]]]. rewrite <- (same_alg _ _ S1), <- (same_kid _ _ S1).
    destruct (jh_alg (m_jwm m)); [|constructor]. destruct (signing_key given (jh_kid (m_jwm m))) as [key| |]; cbn [rbind]; [|constructor|constructor].
    unfold get_body. rewrite <- S4. change (print (m_body m)) with (get_body m). pose proof (verify_order E o _ _ _ _ (get_body m) key (SM 6) eq_refl (SM 7) (HM j m HD (message_text_ext _ _ (numbers_same (rt E 5) (rt E 0) eq_refl) _ _ HT))) as HV. fold E' in HV.
    destruct (verify E (rt E 6) (rt E 7) (get_body m) key) as [v|x|] eqn:V1, (verify E' (rt E' 6) (rt E' 7) (get_body m) key) as [v'|x'|] eqn:V2; inversion HV; subst; cbn [rbind]; constructor.
    exists v, v'. split; [reflexivity|]. split; [reflexivity|]. split; [|split; [|assumption]]; eapply verify_decoded; [|exact V1| |exact V2]; apply env_drt; assumption.
  - destruct (SM 5) as [A1 A2 A3]. rewrite (message_none_order _ _ _ A1 A2 A3 EM). destruct (jws_from_str (rt E 8) text) as [w|] eqn:EW.
    + destruct (jws_close_order E _ _ text w (SM 8) eq_refl HC EW) as [w' [-> [HP HL]]]. inversion HL as [l l' F E1 E2|x E1 E2|E1 E2]; cbn [rbind]; [|constructor|constructor].
      pose proof (verify_entries_order E o text given l l' 0 HE HE' HC F) as HV. fold E' in HV.
      destruct (verify_entries E 0 text given l) as [v|x|] eqn:V1, (verify_entries E' 0 text given l') as [v'|x'|] eqn:V2; inversion HV as [? ? HS| |]; subst; cbn [rbind]; try constructor.
      destruct v as [v|], v' as [v'|]; cbn in HS; try contradiction; cbn [oerr rbind]; constructor.
      exists v, v'. split; [reflexivity|]. split; [reflexivity|]. split; [|split; [|assumption]]; eapply verify_entries_decoded; [|exact V1| |exact V2]; assumption.
    + destruct (SM 8) as [B1 B2 B3]. rewrite (jws_none_order _ _ _ B1 B2 B3 EW). constructor.
Qed.

Lemma decrypt_order : forall E R1 R1' R2 R2' text f key, similar R1 R1' -> fnorm R1 = fl E -> similar R2 R2' -> calm_envelope E text ->
  same_result same_message (decrypt R1 R2 text f key) (decrypt R1' R2' text f key).
Proof.
  intros E R1 R1' R2 R2' text f key [A1 A2 A3] HN S2 HC. unfold decrypt, jwe_from_slice, parse_slice. destruct (utf8_valid text); [|constructor].
  change (let! j := parse text in de_jwe R1 j) with (jwe_from_str R1 text). change (let! j := parse text in de_jwe R1' j) with (jwe_from_str R1' text).
  destruct (jwe_from_str R1 text) as [e|] eqn:EE.
  - destruct (jwe_order R1 R1' text e A1 A2 A3 EE) as [[j [HD HT]] [e' [-> HS]]]. destruct (HC j HD) as [HP _]. specialize (HP e (jwe_text_ext R1 (rt E 0) j e HN HT)).
    destruct HS as [P1 [_ [_ [_ [P2 [P3 P4]]]]]]. apply few_header_opt in P1; [|exact HP]. cbn [oerr rbind]. unfold jwe_payload, jwe_iv. rewrite P1, P2, P3, P4.
    repeat match goal with |- same_result _ (rbind ?x _) (rbind ?x _) => destruct x; cbn [rbind]; [|constructor|constructor] end.
    match goal with |- same_result _ (match ?x with _ => _ end) _ => destruct x; [|constructor|constructor] end. now apply slice_order.
  - rewrite (jwe_none_order R1 R1' text A1 A2 A3 EE). constructor.
Qed.
Lemma receive_jwe_order : forall E o text sk spk, env_ok E -> env_ok (reorder E o) -> calm E text ->
  same_result same_print (receive_jwe E text sk spk) (receive_jwe (reorder E o) text sk spk).
Proof.
  intros E o text sk spk HE HE' [HC _]. unfold receive_jwe. set (E' := reorder E o) in *.
  assert (SM : forall k, similar (rt E k) (rt E' k)) by (intros; now apply similar_env). destruct (SM 1) as [A1 A2 A3].
  assert (HD : forall a key, same_result same_print
    (let? m := decrypt (rt E 2) (rt E 3) text (decrypter E a) key in Ok (message_json m)) (let? m := decrypt (rt E' 2) (rt E' 3) text (decrypter E' a) key in Ok (message_json m))).
  { intros a key. pose proof (decrypt_order E _ _ _ _ text (decrypter E a) key (SM 2) eq_refl (SM 3) HC) as H. change (decrypter E' a) with (decrypter E a).
    destruct (decrypt (rt E 2) (rt E 3) text (decrypter E a) key) as [m|x|] eqn:D1, (decrypt (rt E' 2) (rt E' 3) text (decrypter E a) key) as [m'|x'|] eqn:D2;
      inversion H; subst; cbn [rbind]; constructor.
    exists m, m'. split; [reflexivity|]. split; [reflexivity|]. split; [|split; [|assumption]]; eapply decrypt_decoded; [|exact D1| |exact D2]; apply env_drt; assumption. }
  destruct (jwe_from_str (rt E 1) text) as [e|] eqn:E1.
  - destruct (jwe_order _ _ _ _ A1 A2 A3 E1) as [[j [_ HT]] [e' [-> HS]]]. pose proof (jwe_material _ _ _ _ HT HS) as HM. cbn [oerr rbind].
    assert (HA : forall A f, (forall x y, same_header x y -> f x = f y :> option A) -> jwe_get e f = jwe_get e' f).
    { intros A f Hf. unfold jwe_get. apply fallback_same; [exact Hf| |]; apply HS. }
    rewrite <- (HA _ _ same_alg), <- (HA _ _ same_skid). destruct (jwe_get e jh_alg) as [alg|] eqn:EA; [|constructor]. cbn [oerr rbind]. change (resolve E') with (resolve E).
    match goal with |- same_result _ (rbind ?y _) (rbind ?y _) => destruct y as [pk| |]; [|constructor|constructor] end. cbn [rbind].
    destruct (arr32 sk); [|constructor|constructor]. cbn [rbind]. destruct (arr32 pk); [|constructor|constructor]. cbn [rbind].
    destruct (crypto_alg_of alg); [|constructor|constructor]. cbn [rbind].
    destruct (jwe_recipients e) as [l|], (jwe_recipients e') as [l'|]; cbn in HM; try contradiction; [|apply HD].
    rewrite (find_cek_reorder E o), <- (find_cek_material E e e' sk spk l l'); [|now apply HA, same_alg|now apply HA, same_skid|exact HM].
    destruct (cek_error _); [|constructor|constructor]. cbn [rbind]. apply HD.
  - rewrite (jwe_none_order _ _ _ A1 A2 A3 E1). constructor.
Qed.

(** What follows after decryption. *)
Definition rest (E : env) (text : string) (spk : option string) : res message :=
  let? t := get_message_type (rt E 4) text in
  let? text := (if is_jws_type t then receive_jws E text spk else Ok text) in
  oerr (message_from_str (rt E 9) text) ESerde.
Lemma print_ro : forall m m', decoded m -> decoded m' -> same_message m m' -> forall E spk, env_ok E -> same_result same_message (rest E (message_json m) spk) (rest E (message_json m') spk).
Proof.
  intros m m' D D' HS E spk HE. destruct (printed m D) as [P U], (printed m' D') as [P' U']. pose proof (message_doc_ro m m' (decoded_tidy m D) HS) as HR.
  pose proof (message_bodies m m' (decoded_tidy m D) (decoded_tidy m' D') HS) as HB. unfold rest.
  rewrite (classify_ro (rt E 4) _ _ _ _ (env_drt E 4 HE) P P' HB HR). destruct (get_message_type (rt E 4) (message_json m')) as [t4| |]; cbn [rbind]; try constructor.
  destruct (is_jws_type t4).
  - rewrite (receive_jws_ro E _ _ _ _ spk HE P P' U U' HB HR). apply same_result_refl. apply same_message_refl.
  - cbn [rbind]. destruct (message_from_str (rt E 9) (message_json m)) as [v|] eqn:EM.
    + destruct (message_ro _ _ _ _ _ _ (env_drt E 9 HE) P P' HB HR EM) as [v' [-> S]]. now constructor.
    + rewrite (message_none_ro _ _ _ _ _ (env_drt E 9 HE) P P' HB HR EM). constructor.
Qed.
Lemma same_result_trans : forall x y z, same_result same_message x y -> same_result same_message y z -> same_result same_message x z.
Proof. intros x y z [a b H|e|] H2; inversion H2; subst; constructor. eapply same_message_trans; eauto. Qed.
Lemma final_order : forall E o text text', env_ok E -> env_ok (reorder E o) -> same_print text text' ->
  same_result same_message (oerr (message_from_str (rt E 9) text) ESerde) (oerr (message_from_str (rt (reorder E o) 9) text') ESerde).
Proof.
  intros E o text text' HE HE' [m [m' [-> [-> [D [D' HS]]]]]]. destruct (printed m D) as [P _], (printed m' D') as [P' _].
  pose proof (message_doc_ro m m' (decoded_tidy m D) HS) as HR. pose proof (message_bodies m m' (decoded_tidy m D) (decoded_tidy m' D') HS) as HB.
  destruct (similar_env E o 9 HE HE') as [A1 A2 A3]. destruct (message_from_str (rt E 9) (message_json m)) as [v|] eqn:EM.
  - destruct (message_ro _ _ _ _ _ _ A1 P P' HB HR EM) as [v1 [E1 S1]]. destruct (message_order _ _ _ _ A1 A2 A3 E1) as [_ [v2 [-> S2]]]. constructor. eapply same_message_trans; eauto.
  - rewrite (message_none_order _ _ _ A1 A2 A3 (message_none_ro _ _ _ _ _ A1 P P' HB HR EM)). constructor.
Qed.
Lemma rest_order : forall E o text spk, env_ok E -> env_ok (reorder E o) -> calm E text -> same_result same_message (rest E text spk) (rest (reorder E o) text spk).
Proof.
  intros E o text spk HE HE' HC. unfold rest. destruct (similar_env E o 4 HE HE') as [A1 A2 A3]. rewrite <- (classify_order _ _ text A1 A2 A3).
  destruct (get_message_type (rt E 4) text) as [t| |]; cbn [rbind]; try constructor. destruct (is_jws_type t).
  - pose proof (receive_jws_order E o text spk HE HE' HC) as H. destruct H as [x y H|x|]; cbn [rbind]; [|constructor|constructor]. now apply final_order.
  - cbn [rbind]. destruct (similar_env E o 9 HE HE') as [B1 B2 B3]. destruct (message_from_str (rt E 9) text) as [v|] eqn:EM.
    + destruct (message_order _ _ _ _ B1 B2 B3 EM) as [_ [v2 [-> S2]]]. now constructor.
    + rewrite (message_none_order _ _ _ B1 B2 B3 EM). constructor.
Qed.
Lemma receive_order : forall E o text sk pk spk, env_ok E -> env_ok (reorder E o) -> calm E text -> calm_inside E text sk pk ->
  same_result same_message (receive E text sk pk spk) (receive (reorder E o) text sk pk spk).
Proof.
  intros E o text sk pk spk HE HE' HC HI. destruct (similar_env E o 0 HE HE') as [A1 A2 A3]. unfold receive. rewrite <- (classify_order _ _ text A1 A2 A3).
  destruct (get_message_type (rt E 0) text) as [t| |]; cbn [rbind]; try constructor. destruct (is_jwe_type t).
  - destruct sk as [k|]; cbn [oerr rbind]; try constructor. 
    assert (C : forall t, receive_jwe E text k pk = Ok t -> calm E t) by (intros t0; exact (HI k t0 eq_refl)).
    destruct (receive_jwe_order E o text k pk HE HE' HC) as [x y H|x|]; cbn [rbind]; [|constructor|constructor]. specialize (C x eq_refl).
    destruct H as [m [m' [-> [-> [D [D' HS]]]]]]. change (same_result same_message (rest E (message_json m) spk) (rest (reorder E o) (message_json m') spk)).
    eapply same_result_trans; [apply (rest_order E o); assumption|]. now apply print_ro.
  - cbn [rbind]. now apply rest_order.
Qed.
(** Texts that are no envelopes are read alike without further conditions. *)
Lemma receive_plain_order : forall E o text sk pk spk, env_ok E -> env_ok (reorder E o) ->
  get_message_type (rt E 0) text <> Ok DidCommJwe -> get_message_type (rt E 0) text <> Ok DidCommJws ->
  same_result same_message (receive E text sk pk spk) (receive (reorder E o) text sk pk spk).
Proof.
  intros E o text sk pk spk HE HE' N1 N2. destruct (similar_env E o 0 HE HE') as [A1 A2 A3]. destruct (similar_env E o 4 HE HE') as [C1 C2 C3]. unfold receive.
  rewrite <- (classify_order _ _ text A1 A2 A3). pose proof (classify_order (rt E 0) (rt E 4) text A1 C1 eq_refl) as H4.
  destruct (get_message_type (rt E 0) text) as [t| |]; cbn [rbind]; try constructor. destruct (is_jwe_type t) eqn:T1; [destruct t; congruence || discriminate|].
  cbn [rbind]. rewrite <- (classify_order _ _ text C1 C2 C3), <- H4. cbn [rbind]. destruct (is_jws_type t) eqn:T2; [destruct t; congruence || discriminate|]. cbn [rbind].
  destruct (similar_env E o 9 HE HE') as [B1 B2 B3]. destruct (message_from_str (rt E 9) text) as [v|] eqn:EM.
  - destruct (message_order _ _ _ _ B1 B2 B3 EM) as [_ [v2 [-> S2]]]. now constructor.
  - rewrite (message_none_order _ _ _ B1 B2 B3 EM). constructor.
Qed.
