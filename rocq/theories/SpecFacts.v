(** Facts connecting the specification vocabulary with the lemmas about the model. *)

From Coq Require Import Ascii String Arith NArith List Bool Permutation Sorted Lia.
From Verif Require Import Bytes BytesFacts Base64 Base64Facts Utf8 Utf8Facts Json JsonFacts Value ValueFacts Types Serde SerdeFacts
  Message Envelope Spec.
Import ListNotations.
Local Open Scope string_scope.

Lemma env_drt : forall E k, env_ok E -> drt_ok (rt E k).
Proof. intros E k [Ho Hf]. split; [exact Hf | intros V l; apply Ho]. Qed.

(** ** Values *)

Lemma rust_value_wf : forall j, rust_value j -> wf_json j.
Proof.
  induction j using json_rect2; intros HR; inversion HR; subst; try exact I.
  - assumption.
  - reflexivity.
  - apply wf_arr. apply Forall_forall. intros x Hx. rewrite Forall_forall in H. auto.
  - apply wf_obj. apply Forall_forall. intros x Hx. rewrite Forall_forall in H. auto.
Qed.
Lemma rust_value_sorted : forall j, rust_value j -> osorted j.
Proof.
  induction j using json_rect2; intros HR; inversion HR; subst; try exact I.
  - apply osorted_arr. apply Forall_forall. intros x Hx. rewrite Forall_forall in H. auto.
  - apply osorted_obj. split; [assumption|]. apply Forall_forall. intros x Hx. rewrite Forall_forall in H. auto.
Qed.
Lemma rust_value_intro : forall j, wf_json j -> osorted j -> rust_value j.
Proof.
  induction j using json_rect2; intros HW HS; try (constructor; fail).
  - constructor. exact HW.
  - cbn in HW. subst e. constructor.
  - constructor. intros x Hx. rewrite Forall_forall in H. apply wf_arr in HW. apply osorted_arr in HS.
    rewrite Forall_forall in HW, HS. auto.
  - apply wf_obj in HW. apply osorted_obj in HS. destruct HS as [HS1 HS2]. rewrite Forall_forall in H, HW, HS2.
    constructor; [exact HS1|]. auto.
Qed.
Lemma plain_start_iff : forall l, plain_start l <-> raw_member l = None.
Proof.
  intros [|[k v] r]; split; intros H; try reflexivity.
  - intros k v r E. discriminate.
  - unfold raw_member. destruct (String.eqb_spec k raw_token) as [->|]; [|reflexivity]. exfalso. exact (H _ _ _ eq_refl eq_refl).
  - intros k' v' r' E. injection E as <- <- <-. unfold raw_member in H. destruct (String.eqb_spec k raw_token); [discriminate|assumption].
Qed.
Lemma ordinary_iff : forall j, ordinary j <-> tok_free j.
Proof.
  apply (json_rect2 (fun j => ordinary j <-> tok_free j)); try (intros; split; [intros; exact I|constructor]).
  - intros l IH. rewrite tok_free_arr, Forall_forall in *. split.
    + intros H x Hx. apply IH; [exact Hx|]. inversion H; auto.
    + intros H. constructor. intros x Hx. apply IH; auto.
  - intros l IH. rewrite tok_free_obj, Forall_forall in *. split.
    + intros H x Hx. inversion H as [| | | | |? HL]; subst. destruct (HL x Hx) as [H1 H2]. split; [exact H1|]. now apply IH.
    + intros H. constructor. intros x Hx. destruct (H x Hx) as [H1 H2]. split; [exact H1|]. now apply IH.
Qed.
Lemma stable_iff : forall R j, stable R j <-> nums_stable R j.
Proof.
  intros R. induction j using json_rect2; split; intros HR; try exact I; try (constructor; fail).
  - inversion HR; subst. assumption.
  - constructor. exact HR.
  - inversion HR as [| | | |l' Hx|]; subst. apply nums_stable_arr. apply Forall_forall. intros x Hin.
    rewrite Forall_forall in H. apply H; auto.
  - constructor. intros x Hin. rewrite Forall_forall in H. apply H; auto. apply nums_stable_arr in HR.
    rewrite Forall_forall in HR. auto.
  - inversion HR as [| | | | |l' HM Hx]; subst. apply nums_stable_obj. split; [now apply plain_start_iff|]. apply Forall_forall. intros x Hin.
    rewrite Forall_forall in H. apply H; auto.
  - apply nums_stable_obj in HR. destruct HR as [HM HR]. constructor; [now apply plain_start_iff|]. intros x Hin. rewrite Forall_forall in H. apply H; auto.
    rewrite Forall_forall in HR. auto.
Qed.
Lemma vnum_rt : forall E k k' t, vnum (rt E k) t = vnum (rt E k') t.
Proof. reflexivity. Qed.
Lemma nums_stable_rt : forall E k k' j, nums_stable (rt E k) j -> nums_stable (rt E k') j.
Proof.
  intros E k k'. induction j using json_rect2; intros HS; try exact I.
  - exact HS.
  - apply nums_stable_arr. apply nums_stable_arr in HS. rewrite Forall_forall in *. auto.
  - apply nums_stable_obj. apply nums_stable_obj in HS. destruct HS as [HM HS]. split; [exact HM|]. rewrite Forall_forall in *. auto.
Qed.
Lemma stable_rt : forall E k k' j, stable (rt E k) j -> stable (rt E k') j.
Proof. intros. apply stable_iff. apply stable_iff in H. eapply nums_stable_rt; eauto. Qed.
Lemma rust_canon : forall E k j, rust_value j -> stable (rt E 0) j -> canon (rt E k) j.
Proof.
  intros. split; [|split].
  - apply rust_value_wf; assumption.
  - apply rust_value_sorted; assumption.
  - apply stable_iff. eapply stable_rt; eauto.
Qed.

Lemma Forall_flat_map : forall A B (P : B -> Prop) (f : A -> list B) l,
  Forall P (flat_map f l) <-> Forall (fun a => Forall P (f a)) l.
Proof.
  intros A B P f. induction l as [|a l IH]; cbn; [split; constructor|].
  rewrite Forall_app, IH. split; [intros [H1 H2]; constructor; assumption | intros H; inversion H; auto].
Qed.

Lemma json_strings_utf8 : forall j, Forall rust_string (json_strings j) <-> jutf8 j.
Proof.
  induction j using json_rect2; cbn [json_strings]; try (split; [intros _; exact I | intros _; constructor]).
  - split; [intros H; inversion H; auto | intros H; constructor; [exact H | constructor]].
  - rewrite jutf8_arr, Forall_flat_map. rewrite !Forall_forall in *. split; intros HA x Hx; apply H; auto.
  - rewrite jutf8_obj, Forall_flat_map. rewrite !Forall_forall in *. split; intros HA x Hx.
    + specialize (HA x Hx). inversion HA; subst. split; [assumption | apply H; auto].
    + destruct (HA x Hx) as [H1 H2]. constructor; [exact H1 | apply H; auto].
Qed.

(** ** UTF-8 of serialised messages *)

Definition ents_utf8 (es : list (string * json)) : Prop := Forall (fun kv => utf8_valid (fst kv) = true /\ jutf8 (snd kv)) es.
Lemma ents_utf8_app : forall a b, ents_utf8 (a ++ b)%list <-> ents_utf8 a /\ ents_utf8 b.
Proof. intros. apply Forall_app. Qed.
Lemma ents_utf8_sopt : forall A k (f : A -> json) o, utf8_valid k = true -> (forall a, o = Some a -> jutf8 (f a)) -> ents_utf8 (sopt k f o).
Proof.
  intros A k f [a|] Hk Hf; cbn; [|constructor]. constructor; [|constructor]. split; [exact Hk|]. cbn [snd]. auto.
Qed.
Lemma ents_utf8_svec : forall A k (f : A -> json) l, utf8_valid k = true -> (forall a, In a l -> jutf8 (f a)) -> ents_utf8 (svec k f l).
Proof.
  intros A k f l Hk Hf. unfold svec. destruct l as [|a l]; [constructor|]. constructor; [|constructor].
  split; [exact Hk|]. cbn [snd]. apply jutf8_arr. apply Forall_forall. intros x Hx. apply in_map_iff in Hx.
  destruct Hx as [y [<- Hy]]. auto.
Qed.
Lemma ents_utf8_one : forall k j, utf8_valid k = true -> jutf8 j -> ents_utf8 [(k, j)].
Proof. intros. constructor; [split; assumption|constructor]. Qed.
Lemma jutf8_jstr : forall s, rust_string s -> jutf8 (jstr s).
Proof. intros s H. exact H. Qed.
Lemma ents_utf8_smap : forall m, Forall rust_string (map_strings m) -> ents_utf8 (smap m).
Proof.
  intros m H. unfold map_strings in H. rewrite Forall_flat_map in H. unfold ents_utf8, smap. apply Forall_map.
  eapply Forall_impl; [|exact H]. intros [k v] HH. cbn in *. inversion HH as [|? ? H1 H2]; subst.
  inversion H2; subst. split; assumption.
Qed.
Lemma ostr_in : forall o, Forall rust_string (ostr o) -> forall s, o = Some s -> jutf8 (jstr s).
Proof. intros o H s ->. inversion H; auto. Qed.
Lemma oflat_in : forall A (f : A -> list string) o P, Forall P (oflat f o) -> forall a, o = Some a -> Forall P (f a).
Proof. intros A f o P H a ->. exact H. Qed.

Ltac utf8_split :=
  repeat match goal with
  | H : Forall _ (_ ++ _) |- _ => apply Forall_app in H; destruct H
  end.
Ltac utf8_ents :=
  repeat first
    [ apply ents_utf8_app; split
    | apply ents_utf8_sopt; [reflexivity|]
    | apply ents_utf8_svec; [reflexivity|] ].

Lemma utf8_ser_epk : forall e, Forall rust_string (epk_strings e) -> jutf8 (ser_epk e).
Proof.
  intros e H. unfold epk_strings in H. utf8_split. inversion H as [|? ? Ha Hb]; subst. inversion Hb as [|? ? Hc Hd]; subst.
  inversion Hd as [|? ? He Hf]; subst.
  apply jutf8_obj. utf8_ents.
  - repeat (constructor; [split; [reflexivity|]; assumption|]). constructor.
  - intros a Ea. eapply ostr_in; eauto.
Qed.
Lemma utf8_ser_jwk : forall k, Forall rust_string (jwk_strings k) -> jutf8 (ser_jwk k).
Proof.
  intros k H. unfold jwk_strings in H. utf8_split. apply jutf8_obj. utf8_ents.
  - intros a Ea. eapply (ostr_in (jk_kty k)); eauto.
  - intros a Ea. eapply (ostr_in (jk_use k)); eauto.
  - intros a Ea. eapply (ostr_in (jk_crv k)); eauto.
  - constructor; [|constructor; [|constructor]].
    + split; [reflexivity|]. cbn [snd]. apply jutf8_arr. apply Forall_forall. intros x Hx. apply in_map_iff in Hx.
      destruct Hx as [o [<- _]]. destruct o; reflexivity.
    + split; [reflexivity|]. cbn [snd]. destruct (jk_alg k); reflexivity.
  - intros a Ea. eapply (ostr_in (jk_kid k)); eauto.
  - intros a Ea. apply utf8_ser_epk. eapply (oflat_in _ _ (jk_epk k)); eauto.
  - apply ents_utf8_smap. assumption.
Qed.
Lemma utf8_jwm_entries : forall h, Forall rust_string (jwm_strings h) -> ents_utf8 (jwm_entries h).
Proof.
  intros h H. unfold jwm_strings in H. utf8_split. unfold jwm_entries. utf8_ents.
  - apply ents_utf8_one; [reflexivity|]. destruct (jh_typ h); reflexivity.
  - intros a Ea. eapply (ostr_in (jh_enc h)); eauto.
  - intros a Ea. eapply (ostr_in (jh_kid h)); eauto.
  - intros a Ea. eapply (ostr_in (jh_skid h)); eauto.
  - intros a Ea. eapply (ostr_in (jh_alg h)); eauto.
  - intros a Ea. eapply (ostr_in (jh_jku h)); eauto.
  - intros a Ea. apply utf8_ser_jwk. eapply (oflat_in _ _ (jh_jwk h)); eauto.
  - intros a Ea. apply utf8_ser_jwk. eapply (oflat_in _ _ (jh_epk h)); eauto.
  - intros a Ea. eapply (ostr_in (jh_cty h)); eauto.
Qed.
Lemma utf8_ser_jwm : forall h, Forall rust_string (jwm_strings h) -> jutf8 (ser_jwm h).
Proof. intros h H. apply jutf8_obj. apply utf8_jwm_entries. exact H. Qed.
Lemma jutf8_jnat : forall n, jutf8 (jnat n).
Proof. intros. exact I. Qed.
Lemma utf8_ser_prior : forall p, Forall rust_string (prior_strings p) -> jutf8 (ser_prior p).
Proof.
  intros p H. unfold prior_strings in H. utf8_split. inversion H0; subst. apply jutf8_obj.
  constructor; [|constructor; [|constructor]].
  - split; [reflexivity|]. cbn [snd]. destruct (pc_sub p) as [s|]; cbn [snull]; [|exact I]. eapply ostr_in; eauto.
  - split; [reflexivity|]. assumption.
Qed.
Lemma utf8_ser_thread : forall t, Forall rust_string (thread_strings t) -> jutf8 (ser_thread t).
Proof.
  intros t H. unfold thread_strings in H. utf8_split. inversion H as [|? ? Ha Hb]; subst. inversion Hb as [|? ? Hc Hd]; subst.
  apply jutf8_obj. utf8_ents.
  - repeat (constructor; [split; [reflexivity|]; assumption|]). constructor.
  - intros. apply jutf8_jnat.
  - intros m Em. apply jutf8_obj. apply Forall_map. pose proof (oflat_in _ _ _ _ H0 m Em) as Hm.
    rewrite Forall_map in Hm. eapply Forall_impl; [|exact Hm]. intros [k v] Hk. split; [exact Hk|exact I].
  - intros a Ea. eapply (ostr_in (th_goal_code t)); eauto.
Qed.
Lemma utf8_didcomm_entries : forall d, Forall rust_string (did_strings d) -> ents_utf8 (didcomm_entries d).
Proof.
  intros d H. unfold did_strings in H. utf8_split. inversion H as [|? ? Ha Hb]; subst. inversion Hb as [|? ? Hc Hd]; subst.
  unfold didcomm_entries. utf8_ents.
  - apply ents_utf8_one; [reflexivity|assumption].
  - intros a Ea. eapply (ostr_in (dh_thid d)); eauto.
  - intros a Ea. eapply (ostr_in (dh_pthid d)); eauto.
  - apply ents_utf8_one; [reflexivity|assumption].
  - intros a Ea. apply jutf8_jstr. rewrite Forall_forall in H2. auto.
  - apply ents_utf8_one; [reflexivity|]. destruct (dh_from d) as [s|] eqn:Ef; cbn [snull]; [|exact I].
    eapply ostr_in; eauto.
  - intros. apply jutf8_jnat.
  - intros. apply jutf8_jnat.
  - intros a Ea. apply utf8_ser_prior. eapply (oflat_in _ _ (dh_from_prior d)); eauto.
  - intros a Ea. apply utf8_ser_thread. eapply (oflat_in _ _ (dh_thread d)); eauto.
  - apply ents_utf8_smap. assumption.
Qed.
Lemma utf8_recipient_entries : forall r, Forall rust_string (recipient_strings r) -> ents_utf8 (recipient_entries r).
Proof.
  intros r H. unfold recipient_strings in H. utf8_split. inversion H0; subst.
  constructor; [|constructor; [|constructor]]; (split; [reflexivity|]).
  - apply utf8_ser_jwk. assumption.
  - assumption.
Qed.
Lemma utf8_ser_recipient : forall r, Forall rust_string (recipient_strings r) -> jutf8 (ser_recipient r).
Proof. intros r H. apply jutf8_obj. apply utf8_recipient_entries. exact H. Qed.
Lemma utf8_ser_attachment : forall a, Forall rust_string (attachment_strings a) -> jutf8 (ser_attachment a).
Proof.
  intros a H. unfold attachment_strings in H. utf8_split. apply jutf8_obj. utf8_ents.
  - intros x Ex. eapply (ostr_in (at_id a)); eauto.
  - intros x Ex. eapply (ostr_in (at_description a)); eauto.
  - intros x Ex. eapply (ostr_in (at_filename a)); eauto.
  - intros x Ex. eapply (ostr_in (at_media_type a)); eauto.
  - intros x Ex. eapply (ostr_in (at_format a)); eauto.
  - intros x Ex. eapply (ostr_in (at_lastmod a)); eauto.
  - intros. apply jutf8_jnat.
  - apply ents_utf8_one; [reflexivity|]. apply jutf8_obj. utf8_ents.
    + intros x Ex. eapply (ostr_in (ad_jws (at_data a))); eauto.
    + intros x Ex. eapply (ostr_in (ad_hash (at_data a))); eauto.
    + intros x Ex. apply jutf8_jstr. match goal with H : Forall _ (ad_links _) |- _ => rewrite Forall_forall in H; auto end.
    + intros x Ex. eapply (ostr_in (ad_base64 (at_data a))); eauto.
    + intros x Ex. eapply (ostr_in (ad_json (at_data a))); eauto.
Qed.
Lemma utf8_ser_message : forall m, Forall rust_string (message_strings m) -> jutf8 (ser_message m).
Proof.
  intros m H. unfold message_strings in H. utf8_split. apply jutf8_obj.
  apply ents_utf8_app. split; [apply utf8_jwm_entries; assumption|].
  apply ents_utf8_app. split; [apply utf8_didcomm_entries; assumption|].
  apply ents_utf8_app. split.
  { apply ents_utf8_sopt; [reflexivity|]. intros l El. apply jutf8_arr. apply Forall_map.
    pose proof (oflat_in _ _ _ _ H1 l El) as Hl.
    rewrite Forall_flat_map in Hl. eapply Forall_impl; [|exact Hl]. intros r. apply utf8_ser_recipient. }
  apply ents_utf8_app. split.
  { apply ents_utf8_one; [reflexivity|]. apply json_strings_utf8. assumption. }
  apply ents_utf8_svec; [reflexivity|]. intros a Ha. apply utf8_ser_attachment. rewrite Forall_flat_map in H3.
  rewrite Forall_forall in H3. auto.
Qed.

(** ** From the specification's side conditions to those of the codec lemmas *)

Lemma opt_all_some : forall A (P : A -> Prop) o a, opt_all P o -> o = Some a -> P a.
Proof. intros A P o a H ->. exact H. Qed.

Lemma jwk_ok_intro : forall k, rust_jwk k -> jwk_plain k -> jwk_ok k.
Proof.
  intros k H1 H2. split; [exact H1|]. apply Forall_forall. intros x Hx. apply H2. exact Hx.
Qed.
Lemma jwm_ok_intro : forall h, opt_all rust_jwk (jh_jwk h) -> opt_all rust_jwk (jh_epk h) -> header_plain h -> jwm_ok h.
Proof.
  intros h H1 H2 [H3 H4]. split; intros k Ek; apply jwk_ok_intro.
  - exact (opt_all_some _ _ _ _ H1 Ek).
  - exact (opt_all_some _ _ _ _ H3 Ek).
  - exact (opt_all_some _ _ _ _ H2 Ek).
  - exact (opt_all_some _ _ _ _ H4 Ek).
Qed.
Lemma thread_ok_intro : forall t, rust_thread t -> thread_ok t.
Proof.
  intros t [H1 H2]. split.
  - intros n En. exact (opt_all_some _ _ _ _ H1 En).
  - intros m Em. exact (opt_all_some _ _ _ _ H2 Em).
Qed.
Lemma fresh_names : forall V (m : list (string * V)) names, avoids names m -> fresh_keys m names.
Proof. intros V m names H. apply Forall_forall. intros x Hx. apply H. exact Hx. Qed.
Lemma header_names_incl : incl msg_reserved header_names /\ incl header_names msg_reserved.
Proof. split; intros x Hx; cbn in *; tauto. Qed.

Lemma rust_message_ok : forall m, rust_message m -> avoids header_names (dh_other (m_did m)) -> header_plain (m_jwm m) ->
  opt_all (Forall (fun r => jwk_plain (rc_header r))) (m_recipients m) -> msg_ok m.
Proof.
  intros m HR Hn Hh Hr. destruct HR as [Rs Rj Re Ro Rc Rx Rt Rr Rb Ra]. unfold msg_ok.
  assert (Hf : fresh_keys (dh_other (m_did m)) msg_reserved).
  { eapply fresh_incl; [apply header_names_incl | apply fresh_names; exact Hn]. }
  repeat match goal with |- _ /\ _ => split end.
  - apply jwm_ok_intro; assumption.
  - unfold did_ok. repeat match goal with |- _ /\ _ => split end.
    + assumption.
    + eapply fresh_incl; [|exact Hf]. intros x Hx. unfold msg_reserved. apply in_or_app. right. apply in_or_app. now right.
    + intros n En. exact (opt_all_some _ _ _ _ Rc En).
    + intros n En. exact (opt_all_some _ _ _ _ Rx En).
    + intros t Et. apply thread_ok_intro. exact (opt_all_some _ _ _ _ Rt Et).
  - exact Hf.
  - intros l El. pose proof (opt_all_some _ _ _ _ Rr El) as H1. pose proof (opt_all_some _ _ _ _ Hr El) as H2.
    cbv beta in H1, H2. rewrite Forall_forall in *. intros r Hin. apply jwk_ok_intro; auto.
  - eapply Forall_impl; [|exact Ra]. intros a Ha n En. exact (opt_all_some _ _ _ _ Ha En).
Qed.
Lemma sendable_ok : forall E m, sendable E m -> msg_ok m.
Proof. intros E m [HR Hto Hn Hh Hr Hd Hs]. now apply rust_message_ok. Qed.
Lemma sendable_canon : forall E k m, sendable E m -> canon (rt E k) (m_body m).
Proof. intros E k m [HR _ _ _ _ _ Hs]. apply rust_canon; [apply HR | exact Hs]. Qed.
Lemma sendable_wf : forall E m, sendable E m -> wf_json (ser_message m).
Proof. intros E m H. apply wf_ser_message. apply rust_value_wf. apply (rm_body _ (sd_rust _ _ H)). Qed.
Lemma sendable_utf8 : forall E m, sendable E m -> jutf8 (ser_message m).
Proof. intros E m H. apply utf8_ser_message. apply (rm_strings _ (sd_rust _ _ H)). Qed.

Lemma sendable_parse : forall E m, sendable E m -> parse (message_json m) = Some (ser_message m).
Proof. intros E m H. apply parse_print. eapply sendable_wf; eauto. Qed.
Lemma sendable_from_str : forall E k m, sendable E m -> message_from_str (rt E k) (message_json m) = Some (re_message (rt E k) m).
Proof.
  intros E k m H. unfold message_from_str. rewrite (sendable_parse E m H). cbn [obind].
  apply de_message_ser.
  - eapply sendable_ok; eauto.
  - apply (sd_to _ _ H).
  - apply sendable_canon. exact H.
  - exact (sd_depth _ _ H).
Qed.
Lemma sendable_from_slice : forall E k m, sendable E m -> message_from_slice (rt E k) (message_json m) = Some (re_message (rt E k) m).
Proof.
  intros E k m H. unfold message_from_slice, message_json.
  rewrite parse_slice_print; [|eapply sendable_wf; eauto|eapply sendable_utf8; eauto]. cbn [obind].
  apply de_message_ser.
  - eapply sendable_ok; eauto.
  - apply (sd_to _ _ H).
  - apply sendable_canon. exact H.
  - exact (sd_depth _ _ H).
Qed.

(** ** Equality up to map order *)

Lemma orel_refl : forall A (R : A -> A -> Prop) o, (forall a, R a a) -> orel R o o.
Proof. intros A R [a|] H; cbn; auto. Qed.
Lemma orel_trans : forall A (R : A -> A -> Prop) a b c, (forall x y z, R x y -> R y z -> R x z) -> orel R a b -> orel R b c -> orel R a c.
Proof. intros A R [a|] [b|] [c|] H; cbn; try tauto. apply H. Qed.
Lemma orel_sym : forall A (R : A -> A -> Prop) a b, (forall x y, R x y -> R y x) -> orel R a b -> orel R b a.
Proof. intros A R [a|] [b|] H; cbn; try tauto. apply H. Qed.

Lemma same_jwk_trans : forall a b c, same_jwk a b -> same_jwk b c -> same_jwk a c.
Proof. unfold same_jwk, same_map. intuition (try congruence). eapply perm_trans; eauto. Qed.
Lemma same_jwk_sym : forall a b, same_jwk a b -> same_jwk b a.
Proof. unfold same_jwk, same_map. intuition (try congruence). apply Permutation_sym. assumption. Qed.
Lemma same_jwk_refl : forall a, same_jwk a a.
Proof. unfold same_jwk, same_map. intuition. Qed.
Lemma same_header_trans : forall a b c, same_header a b -> same_header b c -> same_header a c.
Proof.
  unfold same_header. intros a b c H1 H2. repeat match goal with H : _ /\ _ |- _ => destruct H end.
  repeat match goal with |- _ /\ _ => split end; try congruence; eapply orel_trans; eauto using same_jwk_trans.
Qed.
Lemma same_header_sym : forall a b, same_header a b -> same_header b a.
Proof.
  unfold same_header. intros a b H1. repeat match goal with H : _ /\ _ |- _ => destruct H end.
  repeat match goal with |- _ /\ _ => split end; try congruence; eapply orel_sym; eauto using same_jwk_sym.
Qed.
Lemma same_header_refl : forall a, same_header a a.
Proof. unfold same_header. intros. intuition; apply orel_refl; apply same_jwk_refl. Qed.
Lemma same_thread_trans : forall a b c, same_thread a b -> same_thread b c -> same_thread a c.
Proof.
  unfold same_thread. intros a b c H1 H2. repeat match goal with H : _ /\ _ |- _ => destruct H end.
  repeat match goal with |- _ /\ _ => split end; try congruence. eapply orel_trans; eauto. unfold same_map. intros. eapply perm_trans; eauto.
Qed.
Lemma same_thread_sym : forall a b, same_thread a b -> same_thread b a.
Proof.
  unfold same_thread. intros a b H1. repeat match goal with H : _ /\ _ |- _ => destruct H end.
  repeat match goal with |- _ /\ _ => split end; try congruence. eapply orel_sym; eauto. unfold same_map. intros. apply Permutation_sym; auto.
Qed.
Lemma same_thread_refl : forall a, same_thread a a.
Proof. unfold same_thread. intros. intuition. apply orel_refl. intros. apply Permutation_refl. Qed.
Lemma same_did_trans : forall a b c, same_did a b -> same_did b c -> same_did a c.
Proof.
  unfold same_did. intros a b c H1 H2. repeat match goal with H : _ /\ _ |- _ => destruct H end.
  repeat match goal with |- _ /\ _ => split end; try congruence.
  - eapply orel_trans; eauto using same_thread_trans.
  - eapply perm_trans; eauto.
Qed.
Lemma same_did_sym : forall a b, same_did a b -> same_did b a.
Proof.
  unfold same_did. intros a b H1. repeat match goal with H : _ /\ _ |- _ => destruct H end.
  repeat match goal with |- _ /\ _ => split end; try congruence.
  - eapply orel_sym; eauto using same_thread_sym.
  - apply Permutation_sym; eauto.
Qed.
Lemma same_did_refl : forall a, same_did a a.
Proof. unfold same_did, same_map. intros. intuition. apply orel_refl. apply same_thread_refl. Qed.
Lemma same_recipient_trans : forall a b c, same_recipient a b -> same_recipient b c -> same_recipient a c.
Proof. intros a b c [H1 H2] [H3 H4]. split; [eapply same_jwk_trans; eauto | congruence]. Qed.
Lemma same_recipient_refl : forall a, same_recipient a a.
Proof. intros. split; [apply same_jwk_refl | reflexivity]. Qed.
Lemma same_recipient_sym : forall a b, same_recipient a b -> same_recipient b a.
Proof. intros a b [H1 H2]. split; [apply same_jwk_sym; assumption | congruence]. Qed.
Lemma Forall2_trans : forall A (R : A -> A -> Prop), (forall x y z, R x y -> R y z -> R x z) ->
  forall a b c, Forall2 R a b -> Forall2 R b c -> Forall2 R a c.
Proof.
  intros A R HT a b c H1. revert c. induction H1; intros c H2; inversion H2; subst; constructor; eauto.
Qed.
Lemma Forall2_sym : forall A (R : A -> A -> Prop), (forall x y, R x y -> R y x) -> forall a b, Forall2 R a b -> Forall2 R b a.
Proof. intros A R HS a b H. induction H; constructor; auto. Qed.
Lemma Forall2_refl : forall A (R : A -> A -> Prop), (forall x, R x x) -> forall a, Forall2 R a a.
Proof. intros A R HS a. induction a; constructor; auto. Qed.
Lemma same_message_trans : forall a b c, same_message a b -> same_message b c -> same_message a c.
Proof.
  intros a b c (H1 & H2 & H3 & H4 & H5) (G1 & G2 & G3 & G4 & G5). unfold same_message. repeat match goal with |- _ /\ _ => split end.
  - eapply same_header_trans; eauto.
  - eapply same_did_trans; eauto.
  - eapply orel_trans; eauto. apply Forall2_trans. apply same_recipient_trans.
  - congruence.
  - congruence.
Qed.
Lemma same_message_sym : forall a b, same_message a b -> same_message b a.
Proof.
  intros a b (H1 & H2 & H3 & H4 & H5). unfold same_message. repeat match goal with |- _ /\ _ => split end.
  - apply same_header_sym; auto.
  - apply same_did_sym; auto.
  - eapply orel_sym; eauto. apply Forall2_sym. apply same_recipient_sym.
  - congruence.
  - congruence.
Qed.
Lemma same_message_refl : forall a, same_message a a.
Proof.
  intros a. unfold same_message. repeat match goal with |- _ /\ _ => split end; try reflexivity.
  - apply same_header_refl.
  - apply same_did_refl.
  - apply orel_refl. apply Forall2_refl. apply same_recipient_refl.
Qed.

Lemma re_jwk_same : forall E k a, env_ok E -> same_jwk a (re_jwk (rt E k) a).
Proof.
  intros E k a [Ho _]. unfold same_jwk, same_map. cbn [re_jwk jk_kty jk_use jk_crv jk_key_ops jk_alg jk_kid jk_epk jk_other].
  intuition. apply Permutation_sym. apply Ho.
Qed.
Lemma re_jwm_same : forall E k a, env_ok E -> same_header a (re_jwm (rt E k) a).
Proof.
  intros E k a H. unfold same_header, re_jwm. cbn.
  intuition; [destruct (jh_jwk a) | destruct (jh_epk a)]; cbn; auto; apply re_jwk_same; auto.
Qed.
Lemma re_thread_same : forall E k a, env_ok E -> same_thread a (re_thread (rt E k) a).
Proof.
  intros E k a [Ho _]. unfold same_thread, re_thread. cbn. intuition.
  destruct (th_received_orders a); cbn; auto. apply Permutation_sym. apply Ho.
Qed.
Lemma re_did_same : forall E k a, env_ok E -> same_did a (re_did (rt E k) a).
Proof.
  intros E k a H. unfold same_did, re_did. cbn. intuition.
  - destruct (dh_thread a); cbn; auto. apply re_thread_same; auto.
  - apply Permutation_sym. apply (eo_order _ H).
Qed.
Lemma re_recipient_same : forall E k a, env_ok E -> same_recipient a (re_recipient (rt E k) a).
Proof. intros E k a H. split; [apply re_jwk_same; auto | reflexivity]. Qed.
Lemma re_message_same : forall E k m, env_ok E -> same_message m (re_message (rt E k) m).
Proof.
  intros E k m H. unfold same_message, re_message. cbn. intuition.
  - apply re_jwm_same; auto.
  - apply re_did_same; auto.
  - destruct (m_recipients m) as [l|]; cbn; auto. induction l; cbn; constructor; auto. apply re_recipient_same; auto.
Qed.
Lemma re_message_flags : forall R m, flags_reset (re_message R m).
Proof. intros. split; reflexivity. Qed.

(** ** The side conditions do not depend on map orders *)

Lemma map_strings_perm : forall a b (P : string -> Prop), Permutation a b -> Forall P (map_strings a) -> Forall P (map_strings b).
Proof.
  intros a b P HP. unfold map_strings. rewrite !Forall_flat_map. intros H. eapply Permutation_Forall; eauto.
Qed.
Lemma unique_perm : forall V (a b : list (string * V)), Permutation a b -> unique_keys a -> unique_keys b.
Proof. intros V a b HP. unfold unique_keys. apply Permutation_NoDup. apply Permutation_map. exact HP. Qed.
Lemma avoids_perm : forall V ns (a b : list (string * V)), Permutation a b -> avoids ns a -> avoids ns b.
Proof.
  intros V ns a b HP H k Hk. apply H. eapply Permutation_in; [|exact Hk]. apply Permutation_sym. apply Permutation_map. exact HP.
Qed.
Lemma same_jwk_strings : forall P a b, same_jwk a b -> Forall P (jwk_strings a) -> Forall P (jwk_strings b).
Proof.
  intros P a b (H1 & H2 & H3 & H4 & H5 & H6 & H7 & H8). unfold jwk_strings.
  rewrite H1, H2, H3, H6, H7, !Forall_app. intuition. eapply map_strings_perm; eauto.
Qed.
Lemma same_header_strings : forall P a b, same_header a b -> Forall P (jwm_strings a) -> Forall P (jwm_strings b).
Proof.
  intros P a b (H1 & H2 & H3 & H4 & H5 & H6 & H7 & H8 & H9). unfold jwm_strings.
  rewrite H2, H3, H4, H5, H6, H9, !Forall_app. intuition.
  - destruct (jh_jwk a), (jh_jwk b); cbn in *; try tauto. eapply same_jwk_strings; eauto.
  - destruct (jh_epk a), (jh_epk b); cbn in *; try tauto. eapply same_jwk_strings; eauto.
Qed.
Lemma same_thread_strings : forall P a b, same_thread a b -> Forall P (thread_strings a) -> Forall P (thread_strings b).
Proof.
  intros P a b (H1 & H2 & H3 & H4 & H5). unfold thread_strings. rewrite H1, H2, H5, !Forall_app. intuition.
  destruct (th_received_orders a) as [x|], (th_received_orders b) as [y|]; cbn in *; try tauto.
  eapply Permutation_Forall; [apply Permutation_map; exact H4|assumption].
Qed.
Lemma same_did_strings : forall P a b, same_did a b -> Forall P (did_strings a) -> Forall P (did_strings b).
Proof.
  intros P a b (H1 & H2 & H3 & H4 & H5 & H6 & H7 & H8 & H9 & H10 & H11). unfold did_strings.
  rewrite H1, H2, H3, H4, H5, H6, H9, !Forall_app. intuition.
  - destruct (dh_thread a), (dh_thread b); cbn in *; try tauto. eapply same_thread_strings; eauto.
  - eapply map_strings_perm; eauto.
Qed.
Lemma same_recipients_strings : forall P a b, Forall2 same_recipient a b ->
  Forall P (flat_map recipient_strings a) -> Forall P (flat_map recipient_strings b).
Proof.
  intros P a b H. induction H as [|x y a b [H1 H2] H IH]; cbn; auto. unfold recipient_strings. rewrite H2, !Forall_app.
  intuition. eapply same_jwk_strings; eauto.
Qed.
Lemma same_message_strings : forall P a b, same_message a b -> Forall P (message_strings a) -> Forall P (message_strings b).
Proof.
  intros P a b (H1 & H2 & H3 & H4 & H5). unfold message_strings. rewrite H4, H5, !Forall_app. intuition.
  - eapply same_header_strings; eauto.
  - eapply same_did_strings; eauto.
  - destruct (m_recipients a), (m_recipients b); cbn in *; try tauto. eapply same_recipients_strings; eauto.
Qed.
Lemma opt_all_orel : forall A (R : A -> A -> Prop) (P : A -> Prop) a b, orel R a b -> (forall x y, R x y -> P x -> P y) -> opt_all P a -> opt_all P b.
Proof. intros A R P [a|] [b|]; cbn; try tauto. intros H1 H2 H3. eapply H2; eauto. Qed.
Lemma same_jwk_rust : forall x y, same_jwk x y -> rust_jwk x -> rust_jwk y.
Proof. intros x y (_ & _ & _ & _ & _ & _ & _ & H). apply unique_perm. exact H. Qed.
Lemma same_jwk_plain : forall x y, same_jwk x y -> jwk_plain x -> jwk_plain y.
Proof. intros x y (_ & _ & _ & _ & _ & _ & _ & H). apply avoids_perm. exact H. Qed.
Lemma same_thread_rust : forall x y, same_thread x y -> rust_thread x -> rust_thread y.
Proof.
  intros x y (_ & _ & H3 & H4 & _) [G1 G2]. split; [rewrite <- H3; exact G1|].
  eapply opt_all_orel; [exact H4| |exact G2]. cbv beta. intros u v HP [Q1 Q2]. split; [eapply unique_perm; eauto|].
  eapply Permutation_Forall; eauto.
Qed.
Lemma same_recipients_all : forall (P : jwk -> Prop) a b, (forall x y, same_jwk x y -> P x -> P y) -> Forall2 same_recipient a b ->
  Forall (fun r => P (rc_header r)) a -> Forall (fun r => P (rc_header r)) b.
Proof.
  intros P a b HP H. induction H as [|x y a b [H1 H2] H IH]; intros HF; [constructor|]. inversion HF; subst. constructor; eauto.
Qed.
Lemma same_rust : forall a b, same_message a b -> rust_message a -> rust_message b.
Proof.
  intros a b HS HR. pose proof HS as (H1 & H2 & H3 & H4 & H5). destruct HR.
  destruct H1 as (_ & _ & _ & _ & _ & _ & Hj & He & _).
  destruct H2 as (_ & _ & _ & _ & _ & _ & Hc & Hx & _ & Ht & Ho).
  constructor.
  - eapply same_message_strings; eauto.
  - eapply opt_all_orel; [exact Hj| |eassumption]. apply same_jwk_rust.
  - eapply opt_all_orel; [exact He| |eassumption]. apply same_jwk_rust.
  - eapply unique_perm; eauto.
  - rewrite <- Hc. assumption.
  - rewrite <- Hx. assumption.
  - eapply opt_all_orel; [exact Ht| |eassumption]. apply same_thread_rust.
  - eapply opt_all_orel; [exact H3| |eassumption]. cbv beta. intros x y. apply same_recipients_all. apply same_jwk_rust.
  - rewrite <- H4. assumption.
  - rewrite <- H5. assumption.
Qed.
Lemma same_sendable : forall E a b, same_message a b -> sendable E a -> sendable E b.
Proof.
  intros E a b HS HR. pose proof HS as (H1 & H2 & H3 & H4 & H5). destruct HR as [S1 S2 S3 Sh S5 S6 S7].
  destruct H1 as (_ & _ & _ & _ & _ & _ & Hj & He & _).
  destruct H2 as (_ & _ & _ & _ & Hto & _ & _ & _ & _ & _ & Ho).
  constructor.
  - eapply same_rust; eauto.
  - rewrite <- Hto. assumption.
  - eapply avoids_perm; eauto.
  - destruct Sh as [G1 G2]. split.
    + eapply opt_all_orel; [exact Hj| |eassumption]. apply same_jwk_plain.
    + eapply opt_all_orel; [exact He| |eassumption]. apply same_jwk_plain.
  - eapply opt_all_orel; [exact H3| |eassumption]. cbv beta. intros x y. apply same_recipients_all. apply same_jwk_plain.
  - rewrite <- H4. assumption.
  - rewrite <- H4. assumption.
Qed.
