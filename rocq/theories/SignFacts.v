(** Facts about sign and verify. *)

From Coq Require Import Ascii String Arith NArith List Bool Permutation Sorted Lia.
From Verif Require Import Bytes BytesFacts Base64 Base64Facts Utf8 Utf8Facts Json JsonFacts Value ValueFacts Types Serde SerdeFacts
  Message Envelope Spec SpecFacts DecodeFacts PlainFacts PlainFacts2 CodecFacts SetterFacts CryptoLaws SpecSign HeaderFacts PropValue.
Import ListNotations.
Local Open Scope string_scope.

(** ** Base64 text *)

Lemma b64_text_encode : forall s, b64_text s (b64_encode s).
Proof. intros s. exists (b64_encode s), "". split; [apply b64_rfc|]. split; [constructor|]. now rewrite sapp_nil_r. Qed.
Lemma b64_decode_text : forall t s, b64_decode t = Some s -> b64_text s t.
Proof.
  intros t s H. destruct (C36_decode_only_encodings t s H) as [n [Hn ->]]. exists (b64_encode s), (equal_signs n).
  split; [apply b64_rfc|]. split; [|reflexivity]. destruct n as [|[|[|n]]]; cbn; try constructor; lia.
Qed.

(** ** Fields *)

Lemma at_most_once_one : forall es k j, member es k = Some (Got j) -> at_most_once es k.
Proof. intros es k j H. apply at_most_once_occ. congruence. Qed.
Lemma once_member : forall es k v, In (k, v) es -> at_most_once es k -> member es k = Some (Got v).
Proof.
  intros es k v H1 H2. apply at_most_once_occ in H2. unfold member in *. 
  assert (G : In v (occ k es)).
  { unfold occ. apply in_map_iff. exists (k, v). split; [reflexivity|]. apply filter_In. split; [exact H1|]. apply String.eqb_refl. }
  destruct (occ k es) as [|x [|y l]]; [destruct G| |congruence]. destruct G as [->|[]]. reflexivity.
Qed.
Lemma index_of_nth : forall k l, In k l -> nth_error l (index_of k l) = Some k.
Proof.
  intros k l. induction l as [|x l IH]; intros H; [destruct H|]. cbn. destruct (String.eqb_spec k x) as [->|N]; [reflexivity|].
  cbn. apply IH. destruct H as [->|H]; [congruence|exact H].
Qed.
Lemma nth_index_of : forall k l i, NoDup l -> nth_error l i = Some k -> index_of k l = i.
Proof.
  intros k l. induction l as [|x l IH]; intros [|i] HD H; try discriminate; cbn in *.
  - injection H as ->. now rewrite String.eqb_refl.
  - inversion HD as [|? ? HN HD']; subst. destruct (String.eqb_spec k x) as [->|N].
    + exfalso. apply HN. eapply nth_error_In. exact H.
    + now rewrite (IH i HD' H).
Qed.
Lemma view_holds : forall names j g k v, view names j = Some g -> In k names -> g k = Some (Got v) -> holds names j k v.
Proof.
  intros names j g k v H Hk HG. destruct j as [| | | |l|es]; try discriminate; cbn [view] in H.
  - destruct (_ <=? _)%nat; [|discriminate]. apply some_inj in H. subst g. cbn. exists (index_of k names).
    split; [now apply index_of_nth|]. destruct (nth_error l _); [|discriminate]. congruence.
  - apply some_inj in H. subst g. cbn. split; [now apply member_In|]. eapply at_most_once_one. exact HG.
Qed.
Lemma holds_view : forall names j g k v, NoDup names -> view names j = Some g -> holds names j k v -> g k = Some (Got v).
Proof.
  intros names j g k v HD H HG. destruct j as [| | | |l|es]; try discriminate; cbn [view] in H.
  - destruct (_ <=? _)%nat; [|discriminate]. apply some_inj in H. subst g. destruct HG as [i [G1 G2]].
    rewrite (nth_index_of k names i HD G1), G2. reflexivity.
  - apply some_inj in H. subst g. destruct HG. now apply once_member.
Qed.
Lemma entry_nodup : NoDup entry_names.
Proof. unfold entry_names. nodup. Qed.
Lemma jose_nodup : NoDup jose_names.
Proof. unfold jose_names. nodup. Qed.

Lemma dopt_none : forall A (f : json -> option A) x, dopt f x = Some None -> x = Some Absent \/ x = Some (Got JNull).
Proof. intros A f [[| |j]|] H; try discriminate; [now left|]. right. cbn in H. destruct j; try reflexivity; destruct (f _); discriminate. Qed.

(** ** Headers *)

Lemma de_jwm_alg : forall {bf} R j h, de_jwm R bf j = Some h ->
  match jh_alg h with Some a => text_field jose_names j "alg" a | None => lacks jose_names j "alg" end.
Proof.
  intros bf R j h H. unfold de_jwm in H. destruct (view jwm_fields j) as [g|] eqn:EV; [|discriminate]. cbn [obind] in H.
  unfold de_jwm_from in H. obinv H. apply some_inj in H. subst h. cbn [jh_alg].
  match goal with Hx : dopt de_string (g "alg") = Some ?x |- _ => rename Hx into HA; destruct x as [a|] end.
  - apply dopt_some in HA. destruct HA as [x [HA1 HA2]]. destruct x as [| | |e s| |]; try discriminate. injection HA2 as ->.
    exists e. eapply view_holds; [exact EV| |exact HA1]. cbn. tauto.
  - intros y Hv. apply (holds_view _ _ _ _ _ jose_nodup EV) in Hv. apply dopt_none in HA. destruct HA as [HA|HA]; congruence.
Qed.

Lemma de_protected_some : forall R x h, de_protected R x = Some (Some h) -> exists e t raw hj,
  x = Some (Got (JStr e t)) /\ b64_decode t = Some raw /\ parse_slice raw = Some hj /\ de_jwm R false hj = Some h.
Proof.
  intros R x h H. unfold de_protected in H. destruct x as [[| |j]|]; try discriminate. cbn [ddef] in H.
  destruct j as [| | |e t| |]; try discriminate. cbn in H. obinv H. exists e, t, v, v0. repeat split; try assumption.
  destruct v0; try discriminate; cbn [dopt] in H; destruct (de_jwm R false _); try discriminate; congruence.
Qed.
Lemma de_protected_none : forall R x, de_protected R x = Some None ->
  x = Some Absent \/ x = Some Short \/ x = Some (Got JNull) \/ (exists e t raw, x = Some (Got (JStr e t)) /\ b64_decode t = Some raw /\ parse_slice raw = Some JNull).
Proof.
  intros R x H. unfold de_protected in H. destruct x as [[| |j]|]; try discriminate; auto. cbn [ddef] in H.
  destruct j as [| | |e t| |]; try discriminate; auto. cbn in H. obinv H. right. right. right. exists e, t, v. repeat split; try assumption.
  destruct v0; try discriminate; try assumption; cbn [dopt] in H; destruct (de_jwm R false _); discriminate.
Qed.

(** ** Algorithm names *)

Lemma sig_alg_table : forall n a, sig_alg_of n = Ok a <-> In (n, a) sig_table.
Proof.
  intros n a. unfold sig_alg_of, sig_table. split.
  - destruct (String.eqb_spec n "EdDSA") as [->|]; [intros H; apply ok_inj in H; subst; cbn; tauto|].
    destruct (String.eqb_spec n "ES256") as [->|]; [intros H; apply ok_inj in H; subst; cbn; tauto|].
    destruct (String.eqb_spec n "ES256K") as [->|]; [intros H; apply ok_inj in H; subst; cbn; tauto|]. discriminate.
  - intros [H|[H|[H|[]]]]; injection H as <- <-; reflexivity.
Qed.
Lemma sig_alg_name_of : forall a, sig_alg_of (sig_alg_name a) = Ok a.
Proof. intros []; reflexivity. Qed.

(** ** verify *)

Lemma fallback_alg : forall s n, sig_get s jh_alg = Some n ->
  (exists u, sg_header s = Some u /\ jh_alg u = Some n) \/
  ((forall u, sg_header s = Some u -> jh_alg u = None) /\ exists h, sg_protected s = Some h /\ jh_alg h = Some n).
Proof.
  intros s n H. unfold sig_get, fallback in H. destruct (sg_header s) as [u|].
  - destruct (jh_alg u) as [b|] eqn:EU.
    + left. exists u. split; [reflexivity|]. congruence.
    + right. split; [intros u' E; congruence|]. destruct (sg_protected s) as [h|]; [|discriminate]. now exists h.
  - right. split; [discriminate|]. destruct (sg_protected s) as [h|]; [|discriminate]. now exists h.
Qed.
Lemma check_entry_ok : forall E payload key s b, check_entry E payload key s = Ok b ->
  exists h n a, sg_protected s = Some h /\ sig_get s jh_alg = Some n /\ In (n, a) sig_table /\
    sig_verify E a key (header_text h ++ "." ++ payload) (sg_signature s) = Some b.
Proof.
  intros E payload key s b H. unfold check_entry in H. rbinv H. apply oerr_ok in E0, E2. unfold validator in H. apply oerr_ok in H.
  exists v1, v, v0. repeat split; try assumption. now apply sig_alg_table.
Qed.
Lemma entry_outcome_check : forall E payload key s o, entry_outcome E payload key s o ->
  match o with Some b => check_entry E payload key s = Ok b | None => exists x, check_entry E payload key s = Err x end.
Proof.
  assert (HF : forall s h n, sg_protected s = Some h ->
    (exists u, sg_header s = Some u /\ jh_alg u = Some n) \/ ((forall u, sg_header s = Some u -> jh_alg u = None) /\ jh_alg h = Some n) ->
    sig_get s jh_alg = Some n).
  { intros s h n HP [[u [H1 H2]]|[H1 H2]]; unfold sig_get, fallback.
    - now rewrite H1, H2.
    - destruct (sg_header s) as [u|]; [rewrite (H1 u eq_refl)|]; now rewrite HP, H2. }
  intros E payload key s o H. destruct H as [h n a b HP HA HT HV|HP|h HP HA HU|h n HP HA HT|h n a HP HA HT HV]; unfold check_entry.
  - rewrite (HF s h n HP HA). cbn [oerr rbind]. apply sig_alg_table in HT. rewrite HT, HP. cbn [oerr rbind]. unfold validator.
    unfold header_text in HV. unfold signing_input, header_b64. rewrite HV. reflexivity.
  - destruct (sig_get s jh_alg); cbn [oerr rbind]; [|eauto]. destruct (sig_alg_of _) eqn:EA; cbn [rbind]; [rewrite HP; cbn; eauto|eauto|].
    exfalso. eapply sig_alg_of_np; eauto.
  - assert (G : sig_get s jh_alg = None).
    { unfold sig_get, fallback. destruct (sg_header s) as [u|]; [rewrite (HU u eq_refl)|]; rewrite HP; exact HA. }
    rewrite G. cbn. eauto.
  - rewrite (HF s h n HP HA). cbn [oerr rbind]. destruct (sig_alg_of n) as [a| |] eqn:EA; cbn [rbind]; eauto.
    + exfalso. apply (HT a). now apply sig_alg_table.
    + exfalso. eapply sig_alg_of_np; eauto.
  - rewrite (HF s h n HP HA). cbn [oerr rbind]. apply sig_alg_table in HT. rewrite HT, HP. cbn [oerr rbind]. unfold validator.
    unfold header_text in HV. unfold signing_input, header_b64. rewrite HV. cbn. eauto.
Qed.
Lemma entry_outcome_total : forall E payload key s, exists o, entry_outcome E payload key s o.
Proof.
  intros E payload key s. destruct (sg_protected s) as [h|] eqn:HP; [|exists None; now apply eo_no_header].
  assert (HX : (exists n, (exists u, sg_header s = Some u /\ jh_alg u = Some n) \/ ((forall u, sg_header s = Some u -> jh_alg u = None) /\ jh_alg h = Some n)) \/
               ((forall u, sg_header s = Some u -> jh_alg u = None) /\ jh_alg h = None)).
  { destruct (sg_header s) as [u|].
    - destruct (jh_alg u) as [n|] eqn:EU; [left; exists n; left; now exists u|].
      destruct (jh_alg h) as [n|] eqn:EH.
      + left. exists n. right. split; [intros u' Eu; congruence|reflexivity].
      + right. split; [intros u' Eu; congruence|reflexivity].
    - destruct (jh_alg h) as [n|] eqn:EH; [left; exists n; right; split; [discriminate|reflexivity]|right; split; [discriminate|reflexivity]]. }
  destruct HX as [[n HA]|[HU HA]]; [|exists None; now apply (eo_no_alg _ _ _ _ h)].
  destruct (sig_alg_of n) as [a|x|] eqn:EA.
  - apply sig_alg_table in EA. destruct (sig_verify E a key (header_text h ++ "." ++ payload) (sg_signature s)) as [b|] eqn:EV.
    + exists (Some b). now apply (eo_checked _ _ _ _ h n a b).
    + exists None. now apply (eo_malformed _ _ _ _ h n a).
  - exists None. apply (eo_unknown_alg _ _ _ _ h n HP HA). intros a Ha. apply sig_alg_table in Ha. congruence.
  - exfalso. eapply sig_alg_of_np; eauto.
Qed.

Lemma check_entries_true : forall E payload key l, check_entries E payload key l = Ok true <->
  exists pre s post, l = (pre ++ s :: post)%list /\ Forall (fun x => check_entry E payload key x = Ok false) pre /\ check_entry E payload key s = Ok true.
Proof.
  intros E payload key l. induction l as [|s l IH]; cbn [check_entries]; split.
  - discriminate.
  - intros [[|a pre] [s [post [H _]]]]; discriminate.
  - intros H. destruct (check_entry E payload key s) as [[]| |] eqn:EC; cbn [rbind] in H; try discriminate.
    + exists [], s, l. repeat split; [constructor|exact EC].
    + apply IH in H. destruct H as [pre [x [post [-> [HF HX]]]]]. exists (s :: pre), x, post. split; [reflexivity|]. split; [now constructor|exact HX].
  - intros [[|a pre] [x [post [H [HF HX]]]]]; cbn in H; injection H as -> ->.
    + rewrite HX. reflexivity.
    + inversion HF as [|? ? HA HF']; subst. rewrite HA. cbn [rbind]. apply IH. exists pre, x, post. split; [reflexivity|]. now split.
Qed.

Lemma has_entries_iff : forall w l, has_entries w l <-> jws_entries w = Ok l.
Proof.
  intros w l. unfold has_entries, jws_entries. destruct (js_signatures w) as [l'|]; split; intros H.
  - destruct H as [H|[H _]]; congruence.
  - left. apply ok_inj in H. congruence.
  - destruct H as [H|[_ [s [-> ->]]]]; [discriminate|reflexivity].
  - right. split; [reflexivity|]. destruct (js_signature w) as [s|]; [|discriminate]. exists s. split; [reflexivity|]. now apply ok_inj in H.
Qed.

Lemma verify_ok : forall E R1 R2 text key m, verify E R1 R2 text key = Ok m <->
  exists w l pre s post raw, jws_from_slice R1 text = Some w /\ has_entries w l /\ l = (pre ++ s :: post)%list /\
    Forall (fun x => check_entry E (js_payload w) key x = Ok false) pre /\ check_entry E (js_payload w) key s = Ok true /\
    b64_decode (js_payload w) = Some raw /\ message_from_slice R2 raw = Some m.
Proof.
  intros E R1 R2 text key m. unfold verify. split.
  - intros H. rbinv H. destruct v1; [|discriminate]. rbinv H. apply oerr_ok in H, E0, E3. apply has_entries_iff in E1.
    apply check_entries_true in E2. destruct E2 as [pre [s [post [-> [HF HS]]]]]. exists v, (pre ++ s :: post)%list, pre, s, post, v1.
    repeat split; try assumption.
  - intros [w [l [pre [s [post [raw [H1 [H2 [H3 [H4 [H5 [H6 H7]]]]]]]]]]]]. rewrite H1. cbn [oerr rbind]. apply has_entries_iff in H2. rewrite H2. cbn [rbind].
    assert (HC : check_entries E (js_payload w) key l = Ok true) by (apply check_entries_true; eauto 8). rewrite HC. cbn [rbind].
    rewrite H6. cbn [oerr rbind]. now rewrite H7.
Qed.

(** From decoded entries to trees. *)
Lemma jws_names_nodup : NoDup jws_names.
Proof. unfold jws_names. nodup. Qed.
Lemma member_rest : forall ns es k, ~ In k ns -> member (rest_of ns es) k = member es k.
Proof. intros ns es k H. unfold member. now rewrite occ_rest_of. Qed.
Lemma signature_fields_of : forall {bf} R j g s, view entry_names j = Some g -> de_signature_from R bf g = Some s ->
  (forall h, sg_protected s = Some h -> exists hj, protected_tree j hj /\ de_jwm R false hj = Some h) /\
  signature_bytes j (sg_signature s) /\
  (forall u, sg_header s = Some u -> exists uj, holds entry_names j "header" uj /\ de_jwm R bf uj = Some u) /\
  (sg_header s = None -> lacks entry_names j "header").
Proof.
  intros bf R j g s HV H. unfold de_signature_from in H. obinv H. apply some_inj in H. subst s. cbn [sg_protected sg_signature sg_header].
  split; [|split; [|split]].
  - intros h ->. apply de_protected_some in E. destruct E as [e [t [raw [hj [H1 [H2 [H3 H4]]]]]]]. exists hj. split; [|exact H4].
    exists t, raw. split; [exists e; eapply view_holds; [exact HV| |exact H1]; cbn; tauto|]. split; [now apply b64_decode_text|].
    unfold parse_slice in H3. destruct (utf8_valid raw) eqn:EU; [|discriminate]. now split.
  - destruct (g "signature") as [[| |x]|] eqn:EG; try discriminate; cbn in E1.
    + right. split; [|now injection E1]. intros y Hy. apply (holds_view _ _ _ _ _ entry_nodup HV) in Hy. congruence.
    + right. split; [|now injection E1]. intros y Hy. apply (holds_view _ _ _ _ _ entry_nodup HV) in Hy. congruence.
    + left. unfold de_b64_buffer in E1. destruct x as [| | |[] t| |]; try discriminate. exists t.
      split; [exists false; eapply view_holds; [exact HV| |exact EG]; cbn; tauto|]. now apply b64_decode_text.
  - intros u ->. apply dopt_some in E0. destruct E0 as [x [E2 E3]]. exists x. split; [|exact E3]. eapply view_holds; [exact HV| |exact E2]. cbn. tauto.
  - intros ->. apply dopt_none in E0. intros y Hy. apply (holds_view _ _ _ _ _ entry_nodup HV) in Hy. destruct E0; congruence.
Qed.
Lemma check_valid_entry : forall {bf} E R payload key j g s, view entry_names j = Some g -> de_signature_from R bf g = Some s ->
  check_entry E payload key s = Ok true -> valid_entry E R key payload j.
Proof.
  intros bf E R payload key j g s HV HD HC. destruct (signature_fields_of R j g s HV HD) as [F1 [F2 [F3 F4]]].
  apply check_entry_ok in HC. destruct HC as [h [n [a [HP [HN [HT HS]]]]]]. destruct (F1 h HP) as [hj [P1 P2]].
  exists hj, h, (sg_signature s), n, a. split; [exact P1|]. split; [exact P2|]. split; [exact F2|]. split; [|split; [exact HT|exact HS]].
  apply fallback_alg in HN. destruct HN as [[u [U1 U2]]|[U1 [h' [U2 U3]]]].
  - left. destruct (F3 u U1) as [uj [G1 G2]]. exists uj. split; [exact G1|]. pose proof (de_jwm_alg R uj u G2) as HA. rewrite U2 in HA. exact HA.
  - right. assert (h' = h) by congruence. subst h'. split.
    + intros uj Huj Hnn. destruct (sg_header s) as [u|] eqn:EU.
      * destruct (F3 u eq_refl) as [uj' [G1 G2]]. pose proof (de_jwm_alg R uj' u G2) as HA. rewrite (U1 u eq_refl) in HA.
        assert (uj = uj') by (pose proof (holds_view _ _ _ _ _ entry_nodup HV Huj); pose proof (holds_view _ _ _ _ _ entry_nodup HV G1); congruence).
        subst uj'. exact HA.
      * exfalso. apply Hnn. now apply (F4 eq_refl).
    + pose proof (de_jwm_alg R hj h P2) as HA. rewrite U3 in HA. exact HA.
Qed.
Lemma de_jws_entries : forall R j w l, de_jws R j = Some w -> has_entries w l -> text_field jws_names j "payload" (js_payload w) /\
  Forall (fun s => exists e g, sig_entry j e /\ view entry_names e = Some g /\ exists bf, de_signature_from R bf g = Some s) l.
Proof.
  intros R j w l H HE. destruct j as [| | | | |es]; try discriminate. cbn [de_jws] in H. obinv H. destruct (forallb _ _); [|discriminate].
  apply some_inj in H. subst w. unfold has_entries in HE. cbn [js_payload js_signatures js_signature] in *. split.
  - apply dreq_some in E. destruct E as [x [E1 E2]]. destruct x as [| | |e t| |]; try discriminate. injection E2 as ->. exists e.
    cbn. split; [now apply member_In|]. eapply at_most_once_one. exact E1.
  - destruct HE as [->|[-> [s [HS ->]]]].
    + apply dopt_some in E0. destruct E0 as [x [E1 E2]]. destruct x as [| | | |xs|]; try discriminate. cbn in E2.
      assert (HH : holds jws_names (JObj es) "signatures" (JArr xs)).
      { cbn. split; [now apply member_In|]. eapply at_most_once_one. exact E1. }
      apply all_some_Forall2 in E2. apply Forall_forall. intros s Hs.
      assert (G : forall (f : json -> option signature) ys zs, Forall2 (fun x y => f x = Some y) ys zs -> In s zs -> exists y, In y ys /\ f y = Some s).
      { intros f ys zs HF. induction HF as [|y z ys zs HY HF IH]; intros HI; [destruct HI|]. destruct HI as [<-|HI]; [exists y; split; [now left|exact HY]|].
        destruct (IH HI) as [y' [Y1 Y2]]. exists y'. split; [now right|exact Y2]. }
      destruct (G _ _ _ E2 Hs) as [y [Y1 Y2]]. unfold de_signature in Y2. destruct (view signature_fields y) as [g|] eqn:EV; [|discriminate].
      exists y, g. split; [|split; [exact EV|exists false; exact Y2]]. eapply se_general; eauto.
    + constructor; [|constructor]. exists (JObj es), (member es). split; [|split; [reflexivity|exists true]].
      * apply se_flat. intros y [Hy1 Hy2]. pose proof (once_member _ _ _ Hy1 Hy2) as HM. apply dopt_none in E0. destruct E0; congruence.
      * unfold de_signature_from in *. rewrite !member_rest in HS; [exact HS| | |];
          (intros G; cbn in G; repeat (destruct G as [G|G]; [discriminate|]); exact G).
Qed.
Lemma verify_authentic : forall E R1 R2 text key m, verify E R1 R2 text key = Ok m -> authentic E R1 R2 text key m.
Proof.
  intros E R1 R2 text key m H. apply verify_ok in H. destruct H as [w [l [pre [s [post [raw [H1 [H2 [H3 [H4 [H5 [H6 H7]]]]]]]]]]]].
  unfold jws_from_slice in H1. destruct (parse_slice text) as [j|] eqn:EP; [|discriminate]. cbn [obind] in H1.
  unfold parse_slice in EP. destruct (utf8_valid text); [|discriminate].
  destruct (de_jws_entries R1 j w l H1 H2) as [HP HF]. rewrite Forall_forall in HF.
  destruct (HF s) as [e [g [G1 [G2 [bf G3]]]]]; [rewrite H3; apply in_elt|].
  exists j, (js_payload w), e, raw. split; [exact EP|]. split; [exact HP|]. split; [exact G1|]. split; [eapply check_valid_entry; eauto|].
  split; [now apply b64_decode_text|exact H7].
Qed.

(** ** sign *)

Definition sign_header (m : message) : jwm_header := jh_with_typ (m_jwm m) DidCommJws.
Definition sign_payload (m : message) : string := b64_encode (message_json (with_jwm m jwm_default)).
Definition sign_input (m : message) : string := header_text (sign_header m) ++ "." ++ sign_payload m.
Definition sign_entry (m : message) (s : string) : signature :=
  {| sg_protected := Some (sign_header m); sg_header := None; sg_signature := s |}.
Definition sign_env (m : message) (s : string) : jws :=
  if m_flat_jws m then {| js_payload := sign_payload m; js_signature := Some (sign_entry m s); js_signatures := None |}
  else {| js_payload := sign_payload m; js_signature := None; js_signatures := Some (map (fun _ => sign_entry m s) (dh_to (m_did m))) |}.
Lemma sign_ok : forall m f key text, sign m f key = Ok text <->
  exists s, jh_alg (m_jwm m) <> None /\ f key (sign_input m) = Ok s /\ text = jws_json (sign_env m s).
Proof.
  intros m f key text. unfold sign. cbn [jh_with_typ jh_alg]. destruct (jh_alg (m_jwm m)) as [n|].
  - split.
    + intros H. rbinv H. apply ok_inj in H. exists v. split; [discriminate|]. split; [exact E|]. now rewrite <- H.
    + intros [s [_ [H1 ->]]]. change (signing_input _ _) with (sign_input m). rewrite H1. reflexivity.
  - split; [discriminate|]. intros [s [H _]]. congruence.
Qed.
Lemma signer_ok : forall E a key msg s, signer E a key msg = Ok s <-> sig_sign E a key msg = Some s.
Proof. intros. unfold signer. destruct (sig_sign _ _ _ _); cbn; split; intros H; try discriminate; [apply ok_inj in H; now subst|now injection H as ->]. Qed.

Lemma sign_env_good : forall m s, good_header (m_jwm m) -> good_jws (sign_env m s).
Proof.
  intros m s H. assert (G : good_signature (sign_entry m s)) by (split; [cbn; now apply good_typ|exact I]).
  unfold sign_env. destruct (m_flat_jws m); split; cbn [js_payload js_signature js_signatures]; try apply b64_utf8; split; cbn [opt_all]; try exact I.
  - exact G.
  - apply Forall_forall. intros x Hx. apply in_map_iff in Hx. destruct Hx as [_ [<- _]]. exact G.
Qed.
Lemma sign_env_entries : forall R m s, good_header (m_jwm m) -> exists l, has_entries (re_jws R (sign_env m s)) l /\
  Forall (fun x => x = re_signature R (sign_entry m s)) l /\ (m_flat_jws m = true \/ dh_to (m_did m) <> [] -> l <> []) /\
  (m_flat_jws m = false -> dh_to (m_did m) = [] -> l = []).
Proof.
  intros R m s H. unfold sign_env. destruct (m_flat_jws m).
  - exists [re_signature R (sign_entry m s)]. split; [right; cbn; split; [reflexivity|eauto]|]. split; [repeat constructor|]. split; [discriminate|discriminate].
  - exists (map (re_signature R) (map (fun _ => sign_entry m s) (dh_to (m_did m)))). split; [now left|]. split.
    + apply Forall_forall. intros x Hx. apply in_map_iff in Hx. destruct Hx as [y [<- Hy]]. apply in_map_iff in Hy. now destruct Hy as [_ [<- _]].
    + split; [|intros _ ->; reflexivity]. intros [H0|H0]; [discriminate|]. now destruct (dh_to (m_did m)).
Qed.
Lemma sign_env_payload : forall R m s, js_payload (re_jws R (sign_env m s)) = sign_payload m.
Proof. intros R m s. unfold sign_env. now destruct (m_flat_jws m). Qed.

(** Checking the entry that [sign] wrote. *)
Lemma check_signed : forall E R m a n s key, sig_get (re_signature R (sign_entry m s)) jh_alg = Some n -> sig_alg_of n = Ok a ->
  check_entry E (sign_payload m) key (re_signature R (sign_entry m s)) =
  oerr (sig_verify E a key (header_text (re_jwm R (sign_header m)) ++ "." ++ sign_payload m) s) EEdDsa.
Proof. intros E R m a n s key H1 H2. unfold check_entry. rewrite H1. cbn [oerr rbind]. rewrite H2. reflexivity. Qed.
Lemma sign_get : forall R m s A (f : jwm_header -> option A), (forall h, f (re_jwm R h) = f h) -> sig_get (re_signature R (sign_entry m s)) f = f (sign_header m).
Proof. intros. unfold sig_get, fallback. cbn. rewrite H. reflexivity. Qed.

Lemma check_entries_same : forall E payload key x l, l <> [] -> Forall (fun y => y = x) l ->
  check_entry E payload key x = Ok true -> check_entries E payload key l = Ok true.
Proof. intros E payload key x [|y l] H HF HC; [congruence|]. inversion HF; subst. cbn. now rewrite HC. Qed.
Lemma check_entries_all_false : forall E payload key l, Forall (fun y => check_entry E payload key y = Ok false) l ->
  check_entries E payload key l = Ok false.
Proof. intros E payload key l H. induction H as [|y l HY H IH]; [reflexivity|]. cbn. now rewrite HY. Qed.

Lemma verify_signed : forall E R1 R2 m a sk pk text, drt_ok R1 -> good_header (m_jwm m) -> few_custom (m_jwm m) ->
  jh_alg (m_jwm m) = Some (sig_alg_name a) -> key_pair E a sk pk -> sign m (signer E a) sk = Ok text ->
  m_flat_jws m = true \/ dh_to (m_did m) <> [] ->
  verify E R1 R2 text pk = oerr (message_from_slice R2 (message_json (with_jwm m jwm_default))) ESerde.
Proof.
  intros E R1 R2 m a sk pk text HR HG HF HA HK HS HT. apply sign_ok in HS. destruct HS as [s [_ [HS ->]]]. apply signer_ok in HS.
  unfold verify. destruct (jws_round R1 (sign_env m s) (sign_env_good m s HG)) as [-> _]. cbn [oerr rbind].
  destruct (sign_env_entries R1 m s HG) as [l [H1 [H2 [H3 _]]]]. apply has_entries_iff in H1. rewrite H1. cbn [rbind]. rewrite sign_env_payload.
  assert (HC : check_entry E (sign_payload m) pk (re_signature R1 (sign_entry m s)) = Ok true).
  { rewrite (check_signed E R1 m a (sig_alg_name a)); [|rewrite sign_get by reflexivity; exact HA|apply sig_alg_name_of].
    rewrite re_jwm_few; [|exact HR|exact HF]. apply HK in HS. unfold sign_input in HS. rewrite HS. reflexivity. }
  rewrite (check_entries_same _ _ _ _ _ (H3 HT) H2 HC). cbn [rbind]. unfold sign_payload. rewrite b64_decode_encode. reflexivity.
Qed.
Lemma as_jws_alg : forall m a, jh_alg (m_jwm (as_jws m a)) = Some (sig_alg_name a).
Proof. reflexivity. Qed.
Lemma as_jws_good : forall m a, good_header (m_jwm m) -> good_header (m_jwm (as_jws m a)).
Proof. intros m a H. cbn. unfold as_signed. apply good_alg; [destruct a; reflexivity|]. now apply good_typ. Qed.

(** ** receive of signed envelopes *)

Lemma verify_entries_first : forall E i text given key m x l, l <> [] -> Forall (fun y => y = x) l ->
  sig_get x jh_alg <> None -> signing_key given (sig_get x jh_kid) = Ok key ->
  verify E (rt E (20 + 2 * i)) (rt E (21 + 2 * i)) text key = Ok m -> verify_entries E i text given l = Ok (Some m).
Proof.
  intros E i text given key m x [|y l] H HF HA HK HV; [congruence|]. inversion HF; subst. cbn [verify_entries].
  destruct (sig_get x jh_alg); [|congruence]. rewrite HK. cbn [rbind]. rewrite HV. reflexivity.
Qed.
Lemma with_default_sendable : forall E m, sendable E m -> sendable E (with_jwm m jwm_default).
Proof. intros E m H. apply with_jwm_sendable; [exact H|apply default_header]. Qed.
Lemma receive_jws_signed : forall E m a sk pk text given, env_ok E -> sendable E m -> few_custom (m_jwm m) ->
  jh_alg (m_jwm m) = Some (sig_alg_name a) -> key_pair E a sk pk -> sign m (signer E a) sk = Ok text ->
  signing_key given (jh_kid (m_jwm m)) = Ok pk ->
  receive_jws E text given = Ok (message_json (re_message (rt E 21) (with_jwm m jwm_default))).
Proof.
  intros E m a sk pk text given HE HS HF HA HK HT HG.
  pose proof (sendable_header E m HS) as HH. pose proof (sd_to E m HS) as HTo.
  assert (HV : verify E (rt E 20) (rt E 21) text pk = Ok (re_message (rt E 21) (with_jwm m jwm_default))).
  { rewrite (verify_signed E _ _ m a sk pk text); auto; [|now apply env_drt].
    rewrite (sendable_from_slice E 21 _ (with_default_sendable E m HS)). reflexivity. }
  apply sign_ok in HT. destruct HT as [s [_ [HT ->]]]. unfold receive_jws. rewrite jws_not_message.
  destruct (jws_round (rt E 8) (sign_env m s) (sign_env_good m s HH)) as [_ ->].
  destruct (sign_env_entries (rt E 8) m s HH) as [l [H1 [H2 [H3 _]]]]. apply has_entries_iff in H1. rewrite H1. cbn [rbind].
  rewrite (verify_entries_first E 0 _ given pk (re_message (rt E 21) (with_jwm m jwm_default)) (re_signature (rt E 8) (sign_entry m s)) l).
  - reflexivity.
  - auto.
  - exact H2.
  - rewrite sign_get by reflexivity. cbn. now rewrite HA.
  - rewrite sign_get by reflexivity. exact HG.
  - exact HV.
Qed.
Lemma classify_signed : forall R m f sk text, sign m f sk = Ok text -> get_message_type R text = Ok DidCommJws.
Proof.
  intros R m f sk text H. apply sign_ok in H. destruct H as [s [_ [_ ->]]]. unfold get_message_type, jws_json. rewrite parse_print by apply wf_ser_jws.
  cbn [oerr rbind]. unfold sign_env. destruct (m_flat_jws m); reflexivity.
Qed.
Lemma receive_signed : forall E m a sk pk text given esk epk, env_ok E -> sendable E m -> few_custom (m_jwm m) ->
  jh_alg (m_jwm m) = Some (sig_alg_name a) -> key_pair E a sk pk -> sign m (signer E a) sk = Ok text ->
  signing_key given (jh_kid (m_jwm m)) = Ok pk ->
  receive E text esk epk given = Ok (re_message (rt E 9) (re_message (rt E 21) (with_jwm m jwm_default))).
Proof.
  intros E m a sk pk text given esk epk HE HS HF HA HK HT HG. unfold receive. rewrite (classify_signed _ m _ sk text HT). cbn [rbind is_jwe_type].
  rewrite (classify_signed _ m _ sk text HT). cbn [rbind is_jws_type].
  rewrite (receive_jws_signed E m a sk pk text given HE HS HF HA HK HT HG). cbn [rbind].
  rewrite sendable_from_str; [reflexivity|]. eapply same_sendable; [apply re_message_same; exact HE|]. now apply with_default_sendable.
Qed.

(** Acceptance through [receive]. *)
Lemma verify_entries_authentic : forall E text key l i m, verify_entries E i text (Some key) l = Ok (Some m) ->
  exists k, authentic E (rt E (20 + 2 * k)) (rt E (21 + 2 * k)) text key m.
Proof.
  intros E text key l. induction l as [|s l IH]; intros i m H; [discriminate|]. cbn [verify_entries] in H.
  destruct (sig_get s jh_alg); [|eauto]. cbn [signing_key rbind] in H. destruct (verify _ _ _ _ _) as [v| |] eqn:EV; [|eauto|discriminate].
  apply ok_inj in H. injection H as ->. exists i. now apply verify_authentic.
Qed.
Lemma receive_jws_authentic : forall E text key t, receive_jws E text (Some key) = Ok t -> exists m k1 k2 env,
  t = message_json m /\ authentic E (rt E k1) (rt E k2) env key m /\
  (env = text \/ exists outer, message_from_str (rt E 5) text = Some outer /\ env = get_body outer).
Proof.
  intros E text key t H. unfold receive_jws in H. destruct (message_from_str (rt E 5) text) as [o|] eqn:EM.
  - destruct (jh_alg (m_jwm o)); [|discriminate]. cbn [signing_key rbind] in H. rbinv H. apply ok_inj in H. subst t.
    exists v, 6, 7, (get_body o). split; [reflexivity|]. split; [now apply verify_authentic|]. right. now exists o.
  - destruct (jws_from_str (rt E 8) text); [|discriminate]. rbinv H. apply ok_inj in H. subst t. apply oerr_ok in E2. subst v0.
    apply verify_entries_authentic in E1. destruct E1 as [k E1]. exists v1, (20 + 2 * k), (21 + 2 * k), text.
    split; [reflexivity|]. split; [exact E1|]. now left.
Qed.
Lemma receive_authentic : forall E text sk pk key m, get_message_type (rt E 0) text = Ok DidCommJws ->
  receive E text sk pk (Some key) = Ok m -> exists v k1 k2 env, authentic E (rt E k1) (rt E k2) env key v /\
  (env = text \/ exists outer, message_from_str (rt E 5) text = Some outer /\ env = get_body outer) /\
  message_from_str (rt E 9) (message_json v) = Some m.
Proof.
  intros E text sk pk key m HT H. unfold receive in H. rewrite HT in H. cbn [rbind is_jwe_type] in H. rbinv H.
  assert (v = DidCommJws) by (eapply classify_stable; eassumption). subst v. cbn [is_jws_type] in E1. apply oerr_ok in H.
  apply receive_jws_authentic in E1. destruct E1 as [v [k1 [k2 [en [-> [HA HE]]]]]]. exists v, k1, k2, en. auto.
Qed.
