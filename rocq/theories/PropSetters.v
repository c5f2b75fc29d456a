(** Properties C27-C33, C37: builder calls, custom headers, rotation, threads, URIs, attachments, invitations. *)

From Coq Require Import Ascii String Arith NArith List Bool Permutation Lia.
From Verif Require Import Bytes BytesFacts Base64 Base64Facts Utf8 Json JsonFacts SpecJson GrammarFacts Value Types Serde Message Attach Envelope
  Spec SpecOps SpecFacts CryptoLaws Examples BodyFacts CodecFacts PlainFacts PlainFacts2 SetterFacts PropPlain.
Import ListNotations.
Local Open Scope string_scope.

(** ** C27 *)

Theorem C27_to : forall m xs, set_to m xs =
  {| m_jwm := m_jwm m;
     m_did := {| dh_id := dh_id (m_did m); dh_thid := dh_thid (m_did m); dh_pthid := dh_pthid (m_did m); dh_type := dh_type (m_did m);
                 dh_to := filter (fun s => negb (String.eqb s "")) (dh_to (m_did m) ++ xs);
                 dh_from := dh_from (m_did m); dh_created := dh_created (m_did m); dh_expires := dh_expires (m_did m);
                 dh_from_prior := dh_from_prior (m_did m); dh_thread := dh_thread (m_did m); dh_other := dh_other (m_did m) |};
     m_recipients := m_recipients m; m_body := m_body m; m_flat_jwe := m_flat_jwe m; m_flat_jws := m_flat_jws m;
     m_attachments := m_attachments m |}.
Proof. exact set_to_filter. Qed.
Theorem C27_to_twice : forall m xs ys, set_to (set_to m xs) ys = set_to m (xs ++ ys).
Proof. exact set_to_twice. Qed.
(** Any history whose only calls touching [to] are calls of [to]. *)
Theorem C27_to_history : forall E ops m m', run E m ops = Ok m' ->
  (forall o, In o ops -> In FTo (writes o) -> exists xs, o = OTo xs) ->
  dh_to (m_did m') =
    if existsb (fun o => match o with OTo _ => true | _ => false end) ops
    then filter (fun s => negb (String.eqb s "")) (dh_to (m_did m) ++ flat_map (fun o => match o with OTo xs => xs | _ => [] end) ops)
    else dh_to (m_did m).
Proof.
  intros E ops m m' H HN. apply to_history with (E := E); [exact H|]. intros o HI HW. destruct (HN o HI HW) as [xs ->]. reflexivity.
Qed.
Example C27_example : dh_to (m_did (set_to (set_to (message_new "1") ["a"; ""; "b"]) ["a"])) = ["a"; "b"; "a"].
Proof. reflexivity. Qed.
Example C27_example_history :
  let ops := [OTo ["a"; ""]; OFrom "x"; OBody "{}"; OTo ["b"]; OJws Es256] in
  (forall o, In o ops -> In FTo (writes o) -> exists xs, o = OTo xs) /\
  exists m', run toy (message_new "1") ops = Ok m' /\ dh_to (m_did m') = ["a"; "b"].
Proof.
  split.
  - intros o HI HW. cbn in HI. destruct HI as [<-|[<-|[<-|[<-|[<-|[]]]]]]; try (eexists; reflexivity); cbn in HW; intuition discriminate.
  - eexists. split; [vm_compute; reflexivity|reflexivity].
Qed.

(** ** C28 *)

(** Fields that no call writes keep their value. *)
Theorem C28_frame : forall E ops m m' f, run E m ops = Ok m' -> (forall o, In o ops -> ~ In f (writes o)) -> field_eq f m m'.
Proof. exact run_frame. Qed.
(** The last call that writes a field determines it. *)
Theorem C28_last_write : forall E before o after m m' f, run E m (before ++ o :: after) = Ok m' -> In f (writes o) ->
  (forall o', In o' after -> ~ In f (writes o')) -> leaves E o f m'.
Proof. exact last_write. Qed.
(** Only [body] can fail. *)
Theorem C28_fails : forall E m ops, (forall o, In o ops -> forall t, o <> OBody t) -> exists m', run E m ops = Ok m'.
Proof.
  intros E m ops. revert m. induction ops as [|o r IH]; intros m H; [now exists m|]. cbn [run].
  assert (HS : exists m', step E m o = Ok m').
  { destruct o; try (eexists; reflexivity). exfalso. now apply (H (OBody text) (or_introl eq_refl) text). }
  destruct HS as [m1 ->]. apply IH. intros o' Ho. apply H. now right.
Qed.
(** [resolve]d key ids: without a key the [kid] comes from the document of [from], or stays. *)
Theorem C28_resolved_kid : forall E m a,
  let m' := as_jwe (resolve E) m a None in
  match dh_from (m_did m) with
  | Some f => match resolve E f with
              | Some doc => jh_kid (m_jwm m') = doc_key_id doc (match a with XC20P => "X25519" | _ => "P-256" end)
              | None => jh_kid (m_jwm m') = jh_kid (m_jwm m)
              end
  | None => jh_kid (m_jwm m') = jh_kid (m_jwm m)
  end.
Proof.
  intros E m a m'. unfold m', as_jwe. destruct (dh_from (m_did m)) as [f|]; [destruct (resolve E f) as [doc|]|]; try reflexivity; now destruct a.
Qed.
Definition ex_history : list op :=
  [OFrom "did:toy:bob"; OType "t1"; OThid "x"; OJwe XC20P (Some "key"); OFrom "did:toy:alice"; OTimed (Some 5%N) None; OThid "y"; OBody "[1]"; OKid "k"].
Example C28_example : exists m', run toy ex_plain ex_history = Ok m' /\
  dh_from (m_did m') = Some "did:toy:alice" /\ dh_thid (m_did m') = Some "y" /\ jh_kid (m_jwm m') = Some "k" /\
  jh_alg (m_jwm m') = Some "ECDH-1PU+XC20PKW" /\ dh_to (m_did m') = dh_to (m_did ex_plain) /\
  (forall o, In o ex_history -> ~ In FTo (writes o)).
Proof.
  eexists. split; [vm_compute; reflexivity|]. repeat (split; [reflexivity|]).
  intros o HI HW. cbn in HI. repeat (destruct HI as [<-|HI]; [cbn in HW; intuition discriminate|]). destruct HI.
Qed.
Example C28_example_last : ex_history = ([OFrom "did:toy:bob"; OType "t1"; OThid "x"; OJwe XC20P (Some "key")] ++ OFrom "did:toy:alice" ::
    [OTimed (Some 5%N) None; OThid "y"; OBody "[1]"; OKid "k"])%list /\
  In FFrom (writes (OFrom "did:toy:alice")) /\ (forall o', In o' [OTimed (Some 5%N) None; OThid "y"; OBody "[1]"; OKid "k"] -> ~ In FFrom (writes o')).
Proof.
  split; [reflexivity|]. split; [cbn; tauto|]. intros o HI HW. cbn in HI. repeat (destruct HI as [<-|HI]; [cbn in HW; intuition discriminate|]). destruct HI.
Qed.

(** ** C29 *)

Theorem C29_lookup : forall m k v x, map_get x (application_params (add_header_field m k v)) =
  if String.eqb k "" then map_get x (application_params m) else if String.eqb x k then Some v else map_get x (application_params m).
Proof. exact add_field_get. Qed.
(** The iterator yields each key once, with exactly the value looked up. *)
Theorem C29_iterator : forall m k v, unique_keys (application_params m) ->
  unique_keys (application_params (add_header_field m k v)) /\
  (k <> "" -> In (k, v) (application_params (add_header_field m k v))) /\
  (forall k' v', k' <> k -> (In (k', v') (application_params (add_header_field m k v)) <-> In (k', v') (application_params m))) /\
  (forall v', k <> "" -> In (k, v') (application_params (add_header_field m k v)) -> v' = v).
Proof.
  intros m k v HU. pose proof (add_field_unique m k v HU) as HU'. split; [exact HU'|]. split; [|split].
  - intros N. apply map_get_In. unfold application_params. rewrite add_field_get. destruct (String.eqb_spec k ""); [contradiction|].
    now rewrite String.eqb_refl.
  - intros k' v' N. unfold application_params. split; intros H; apply map_get_In; [apply In_map_get in H; [|exact HU']|apply In_map_get in H; [|exact HU]];
      [rewrite add_field_get in H|rewrite add_field_get]; (destruct (String.eqb k ""); [exact H|]); destruct (String.eqb_spec k' k); congruence.
  - intros v' N H. unfold application_params in H. apply In_map_get in H; [|exact HU']. rewrite add_field_get in H. destruct (String.eqb_spec k ""); [contradiction|].
    rewrite String.eqb_refl in H. congruence.
Qed.
(** The empty key is ignored; nothing else changes in any case. *)
Theorem C29_empty_key : forall m v, add_header_field m "" v = m.
Proof. reflexivity. Qed.
Theorem C29_frame : forall m k v f, f <> FOther -> field_eq f m (add_header_field m k v).
Proof. intros m k v f N. apply (step_frame toy m (OField k v) (add_header_field m k v) f eq_refl). cbn. intuition. Qed.
(** Histories: the last value given for the key. *)
Theorem C29_history : forall E ops m m' x, run E m ops = Ok m' ->
  (forall o, In o ops -> In FOther (writes o) -> exists k v, o = OField k v) ->
  (forall v, last_binding (flat_map (fun o => match o with OField k v => [(k, v)] | _ => [] end) ops) x v -> x <> "" ->
     map_get x (application_params m') = Some v) /\
  ((forall v, ~ In (OField x v) ops) -> map_get x (application_params m') = map_get x (application_params m)).
Proof.
  intros E ops m m' x H HN.
  assert (HF : forall o, In o ops -> In FOther (writes o) -> is_field o = true) by (intros o HI HW; destruct (HN o HI HW) as [k [v ->]]; reflexivity).
  pose proof (field_history E ops m m' x H HF) as HH. unfold application_params. rewrite HH.
  assert (HA : forall l k, k <> "" -> map_get k (rev (flat_map field_args l)) = map_get k (rev (flat_map (fun o => match o with OField k v => [(k, v)] | _ => [] end) l))).
  { intros l k N. assert (HG : forall (a b : list (string * string)), map_get k (a ++ b)%list = match map_get k a with Some v => Some v | None => map_get k b end).
    { induction a as [|[k2 v2] a IHa]; intros b; [reflexivity|]. cbn. destruct (String.eqb k k2); [reflexivity|apply IHa]. }
    induction l as [|o l IH]; [reflexivity|]. cbn [flat_map]. rewrite !rev_app_distr, !HG, <- IH. destruct (map_get k (rev (flat_map field_args l))); [reflexivity|].
    destruct o; try reflexivity. cbn [field_args]. destruct (String.eqb_spec k0 "") as [->|N2]; [|reflexivity]. cbn.
    destruct (String.eqb_spec k ""); [contradiction|reflexivity]. }
  split.
  - intros v HL N. rewrite HA by exact N. destruct HL as [before [after [HL HI]]]. rewrite HL, rev_app_distr. cbn [rev].
    assert (HG : forall (a b : list (string * string)), ~ In x (map fst a) -> map_get x (a ++ b)%list = map_get x b).
    { induction a as [|[k2 v2] a IHa]; intros b HX; [reflexivity|]. cbn in *. destruct (String.eqb_spec x k2) as [->|]; [exfalso; auto|apply IHa; auto]. }
    rewrite <- app_assoc, HG.
    + cbn. now rewrite String.eqb_refl.
    + rewrite map_rev. intros G. apply in_rev in G. contradiction.
  - intros HX. assert (HM : map_get x (rev (flat_map field_args ops)) = None).
    { apply map_get_None. intros G. unfold keys in G. rewrite map_rev in G. apply in_rev in G. apply in_map_iff in G. destruct G as [[k v] [Ek G]]. cbn in Ek. subst k.
      apply in_flat_map in G. destruct G as [o [HI G]]. destruct o; try destruct G. cbn [field_args] in G. destruct (String.eqb k ""); [destruct G|].
      destruct G as [G|[]]. injection G as -> ->. exact (HX v HI). }
    now rewrite HM.
Qed.
Example C29_example : let m := add_header_field (add_header_field (add_header_field ex_small "a" "1") "b" "2") "a" "3" in
  unique_keys (application_params m) /\ application_params m = [("a", "3"); ("b", "2")].
Proof. split; [|reflexivity]. apply C29_iterator. apply C29_iterator. apply C29_iterator. constructor. Qed.
Example C29_example_history :
  let ops := [OField "a" "1"; OField "" "x"; OFrom "f"; OField "b" "2"; OField "a" "3"] in
  (exists m', run toy ex_plain ops = Ok m') /\ (forall o, In o ops -> In FOther (writes o) -> exists k v, o = OField k v) /\
  last_binding (flat_map (fun o => match o with OField k v => [(k, v)] | _ => [] end) ops) "b" "2".
Proof.
  cbn zeta. split; [eexists; reflexivity|]. split.
  - intros o HI HW. cbn in HI. repeat (destruct HI as [<-|HI]; [cbn in HW; try (eexists; eexists; reflexivity); intuition discriminate|]). destruct HI.
  - exists [("a", "1"); ("", "x")], [("a", "3")]. split; [reflexivity|]. cbn. intuition discriminate.
Qed.

(** ** C30 *)

Theorem C30_get_prior : forall m, (is_rotation m = true <-> exists p, dh_from_prior (m_did m) = Some p) /\
  (forall p, get_prior m = Ok p <-> dh_from_prior (m_did m) = Some p) /\ (is_rotation m = false -> get_prior m = Err ENoRotationData).
Proof.
  intros m. unfold get_prior, is_rotation. destruct (dh_from_prior (m_did m)) as [p|]; cbn; repeat split; try discriminate; try congruence.
  - intros _. now exists p.
  - intros [p H]. discriminate.
Qed.
(** No call except replacing the whole header touches rotation data. *)
Theorem C30_setters : forall E ops m m', run E m ops = Ok m' -> (forall o, In o ops -> forall d, o <> ODidcomm d) ->
  dh_from_prior (m_did m') = dh_from_prior (m_did m) /\ is_rotation m' = is_rotation m.
Proof.
  intros E ops m m' H HN. assert (HF : field_eq FPrior m m').
  { eapply run_frame; [exact H|]. intros o HI HW. destruct o; cbn in HW; try (intuition discriminate). exact (HN _ HI d eq_refl). }
  destruct HF as [_ [HF _]]. cbn in HF. unfold is_rotation. now rewrite HF.
Qed.
(** Rotation data survives a plain round trip. *)
Theorem C30_plain_round_trip : forall E m sk pk spk, env_ok E -> sendable E m ->
  jh_typ (m_jwm m) <> DidCommJwe -> jh_typ (m_jwm m) <> DidCommJws -> avoids envelope_names (dh_other (m_did m)) ->
  exists m', receive E (as_raw_json m) sk pk spk = Ok m' /\ is_rotation m' = is_rotation m /\ get_prior m' = get_prior m.
Proof.
  intros E m sk pk spk HE HS N1 N2 HA. destruct (C01_plain_round_trip E m sk pk spk HE HS N1 N2 HA) as [m' [H1 [H2 _]]].
  exists m'. split; [exact H1|]. assert (HP : dh_from_prior (m_did m) = dh_from_prior (m_did m')) by apply H2.
  unfold get_prior, is_rotation. rewrite HP. split; reflexivity.
Qed.
Example C30_example : is_rotation ex_plain = true /\ get_prior ex_plain = Ok {| pc_sub := None; pc_iss := "did:toy:old" |} /\
  exists m', run toy ex_plain ex_history = Ok m' /\ is_rotation m' = true.
Proof. split; [reflexivity|]. split; [reflexivity|]. eexists. split; [vm_compute; reflexivity|reflexivity]. Qed.

(** ** C31 *)

(** Reply to a message whose decorator marks an implicit reply. *)
Theorem C31_reply_decorator : forall m p t, dh_thread (m_did p) = Some t -> marks_reply t (dh_id (m_did p)) ->
  let m' := reply_to m p in
  dh_thid (m_did m') = Some (th_thid t) /\
  dh_thread (m_did m') = Some {| th_thid := th_thid t; th_pthid := ""; th_sender_order := None; th_received_orders := None; th_goal_code := None |} /\
  dh_to (m_did m') = (dh_to (m_did m) ++ [match dh_from (m_did p) with Some f => f | None => "" end])%list /\
  forall f, ~ In f [FThid; FThread; FTo] -> field_eq f m m'.
Proof.
  intros m p t HT HM m'. unfold m'. rewrite (reply_marked m p t HT HM). repeat (split; [reflexivity|]).
  intros f HN. destruct f; try (exfalso; apply HN; cbn; tauto); now fld.
Qed.
(** Reply to any other message. *)
Theorem C31_reply_plain : forall m p, (forall t, dh_thread (m_did p) = Some t -> ~ marks_reply t (dh_id (m_did p))) ->
  let m' := reply_to m p in
  dh_thid (m_did m') = dh_thid (m_did p) /\ dh_pthid (m_did m') = dh_pthid (m_did p) /\
  dh_to (m_did m') = (dh_to (m_did m) ++ [match dh_from (m_did p) with Some f => f | None => "" end])%list /\
  forall f, ~ In f [FThid; FPthid; FTo] -> field_eq f m m'.
Proof.
  intros m p HN m'. unfold m'. rewrite (reply_plain m p HN). repeat (split; [reflexivity|]).
  intros f HF. destruct f; try (exfalso; apply HF; cbn; tauto); now fld.
Qed.
(** All replies of a chain carry the thread id of its first message. *)
Theorem C31_chain : forall m0 m x, in_thread m0 x -> reply_chain m0 m -> dh_thid (m_did m) = x /\ in_thread m x.
Proof. exact chain_thread. Qed.
Theorem C31_thread_exists : forall m, exists x, in_thread m x /\ forall y, in_thread m y -> y = x.
Proof. intros m. destruct (in_thread_total m) as [x H]. exists x. split; [exact H|]. intros y Hy. eapply in_thread_fun; eassumption. Qed.
(** A first message without [thid] is not linked to its replies: nothing in a reply refers to its id. *)
Theorem C31_unlinked : forall m0 m, dh_thid (m_did m0) = None -> dh_thread (m_did m0) = None -> reply_chain m0 m -> dh_thid (m_did m) = None.
Proof.
  intros m0 m H1 H2 HC. apply (chain_thread m0 m None); [|exact HC]. rewrite <- H1. apply (it_thid m0). intros t H. congruence.
Qed.
Theorem C31_unlinked_refuted : exists m0, dh_thid (m_did m0) = None /\ dh_thread (m_did m0) = None /\
  forall m, reply_chain m0 m -> dh_thid (m_did m) = None.
Proof.
  exists ex_small. split; [reflexivity|]. split; [reflexivity|]. intros m HC. now apply (C31_unlinked ex_small).
Qed.
Theorem C31_parent : forall m p,
  dh_pthid (m_did (with_parent m p)) = Some (match dh_thid (m_did p) with Some t => t | None => dh_id (m_did p) end) /\
  forall f, f <> FPthid -> field_eq f m (with_parent m p).
Proof. intros m p. split; [reflexivity|]. intros f N. destruct f; try contradiction; now fld. Qed.
Definition ex_threaded : message :=
  with_did ex_plain (dh_with_thread (m_did ex_plain) (Some
    {| th_thid := "thread"; th_pthid := ""; th_sender_order := Some 1%N; th_received_orders := Some [("did:toy:bob", 0%N)]; th_goal_code := None |})).
Example C31_example : in_thread ex_threaded (Some "thread") /\ in_thread ex_plain (Some "t1") /\
  reply_chain ex_threaded (reply_to ex_small (reply_to (message_new "new") ex_threaded)) /\
  dh_thid (m_did (reply_to ex_small (reply_to (message_new "new") ex_threaded))) = Some "thread" /\
  dh_to (m_did (reply_to ex_small (reply_to (message_new "new") ex_threaded))) = ["did:toy:bob"; ""].
Proof.
  split.
  { apply (it_decorator ex_threaded {| th_thid := "thread"; th_pthid := ""; th_sender_order := Some 1%N; th_received_orders := Some [("did:toy:bob", 0%N)]; th_goal_code := None |} eq_refl).
    split; [discriminate|]. intros ro HE k n HI. cbn in HE. injection HE as <-. destruct HI as [HI|[]]. congruence. }
  split.
  { apply (it_thid ex_plain). intros t HE [_ HM]. cbn in HE. injection HE as <-.
    specialize (HM _ eq_refl "did:toy:bob" 1%N (or_introl eq_refl)). discriminate. }
  split; [apply rc_next; [apply rc_first; reflexivity|reflexivity]|]. split; reflexivity.
Qed.

(** ** C32 *)

Theorem C32_uri : forall m, message_uri m = "didcomm://" ++ dh_id (m_did m) ++ (match dh_thid (m_did m) with Some t => t | None => "" end)
  ++ (match dh_pthid (m_did m) with Some t => t | None => "" end).
Proof. reflexivity. Qed.
(** Two messages of one sender that differ in id, thid and pthid share a URI. *)
Theorem C32_ambiguous : exists m m', message_uri m = message_uri m' /\ dh_id (m_did m) <> dh_id (m_did m') /\
  dh_thid (m_did m) <> dh_thid (m_did m') /\ dh_pthid (m_did m) <> dh_pthid (m_did m').
Proof.
  exists (set_pthid (set_thid (message_new "a") "b") "cd"), (set_pthid (set_thid (message_new "ab") "c") "d").
  repeat split; discriminate.
Qed.
(** For every message with a non-empty thread id there is another one with the same URI. *)
Theorem C32_always_ambiguous : forall m t, dh_thid (m_did m) = Some t -> t <> "" ->
  exists m', message_uri m' = message_uri m /\ dh_id (m_did m') <> dh_id (m_did m).
Proof.
  intros m t HT N. exists (with_did m {| dh_id := dh_id (m_did m) ++ t; dh_thid := None; dh_pthid := dh_pthid (m_did m); dh_type := dh_type (m_did m);
    dh_to := dh_to (m_did m); dh_from := dh_from (m_did m); dh_created := dh_created (m_did m); dh_expires := dh_expires (m_did m);
    dh_from_prior := dh_from_prior (m_did m); dh_thread := dh_thread (m_did m); dh_other := dh_other (m_did m) |}).
  rewrite !C32_uri. cbn [m_did with_did dh_id dh_thid dh_pthid]. rewrite HT. split.
  - change ("" ++ ?x) with x. now rewrite !sapp_assoc.
  - intros H. apply (f_equal String.length) in H. rewrite slen_app in H. destruct t; [congruence|]. cbn in H. lia.
Qed.
(** It is injective where the lengths are known. *)
Theorem C32_injective : forall m m', message_uri m = message_uri m' ->
  String.length (dh_id (m_did m)) = String.length (dh_id (m_did m')) ->
  String.length (or_empty (dh_thid (m_did m))) = String.length (or_empty (dh_thid (m_did m'))) ->
  dh_id (m_did m) = dh_id (m_did m') /\ or_empty (dh_thid (m_did m)) = or_empty (dh_thid (m_did m')) /\
  or_empty (dh_pthid (m_did m)) = or_empty (dh_pthid (m_did m')).
Proof.
  intros m m' H H1 H2. unfold message_uri, dh_message_uri in H. apply (f_equal (drop 10)) in H. cbn [append drop] in H.
  apply sapp_inj_len in H; [|exact H1]. destruct H as [E1 H]. apply sapp_inj_len in H; [|exact H2]. destruct H as [E2 E3]. auto.
Qed.
Example C32_example : exists m t, dh_thid (m_did m) = Some t /\ t <> "" /\ message_uri m = "didcomm://urn:1t1".
Proof. exists ex_plain, "t1". repeat split. discriminate. Qed.

(** ** C33 *)

Theorem C33_history : forall E ops m m', run E m ops = Ok m' ->
  attachment_iter m' = (attachment_iter m ++ flat_map (fun o => match o with
     | OAttach now b => [if ab_timed b then at_with_lastmod now (ab_inner b) else ab_inner b] | _ => [] end) ops)%list.
Proof. exact attach_history. Qed.
Theorem C33_raw_payload : forall d bytes, exists t, ad_base64 (with_raw_payload d bytes) = Some t /\ rfc4648 bytes t /\ b64_decode t = Some bytes.
Proof. intros d bytes. exists (b64_encode bytes). split; [reflexivity|]. split; [apply b64_rfc|apply b64_decode_encode]. Qed.
(** Decoding: exactly the attachments whose [format] is application/json, in order. *)
Theorem C33_deserialize : forall T (de : string -> option T) m ts, deserialize_attachments de m "application/json" = Ok ts <->
  Forall2 (fun a t => at_media_type a = Some "application/json" /\ exists j, ad_json (at_data a) = Some j /\ de j = Some t)
    (filter (fun a => match at_format a with Some f => String.eqb f "application/json" | None => false end) (attachment_iter m)) ts.
Proof. exact deserialize_all. Qed.
Theorem C33_deserialize_total : forall T (de : string -> option T) m fmt, deserialize_attachments de m fmt <> Panic /\
  (fmt <> "application/json" -> deserialize_attachments de m fmt = Err (EAttachment "unsupported media type")).
Proof.
  intros T de m fmt. split; [apply deserialize_np|]. intros N. unfold deserialize_attachments. destruct (String.eqb_spec fmt "application/json"); [contradiction|reflexivity].
Qed.
(** One undecodable attachment makes all of them unavailable. *)
Theorem C33_one_bad : forall T (de : string -> option T) m a, In a (attachment_iter m) -> at_format a = Some "application/json" ->
  (at_media_type a <> Some "application/json" \/ ad_json (at_data a) = None \/ exists j, ad_json (at_data a) = Some j /\ de j = None) ->
  forall ts, deserialize_attachments de m "application/json" <> Ok ts.
Proof.
  intros T de m a HI HF HB ts H. apply deserialize_all in H.
  assert (HG : In a (filter (has_format "application/json") (m_attachments m))).
  { apply filter_In. split; [exact HI|]. unfold has_format. now rewrite HF, String.eqb_refl. }
  clear HI. induction H as [|x t l ts' [H1 [j [H2 H3]]] H IH]; [destruct HG|]. destruct HG as [->|HG]; [|exact (IH HG)].
  destruct HB as [HB|[HB|[j' [HB1 HB2]]]]; congruence.
Qed.
(** Attachments survive a plain round trip. *)
Theorem C33_plain_round_trip : forall E m sk pk spk, env_ok E -> sendable E m ->
  jh_typ (m_jwm m) <> DidCommJwe -> jh_typ (m_jwm m) <> DidCommJws -> avoids envelope_names (dh_other (m_did m)) ->
  exists m', receive E (as_raw_json m) sk pk spk = Ok m' /\ attachment_iter m' = attachment_iter m.
Proof.
  intros E m sk pk spk HE HS N1 N2 HA. destruct (C01_plain_round_trip E m sk pk spk HE HS N1 N2 HA) as [m' [H1 [H2 _]]].
  exists m'. split; [exact H1|]. symmetry. apply H2.
Qed.
Example C33_example :
  deserialize_attachments parse ex_plain "application/json" = Ok [JObj [("x", JNum "1")]; JObj [("x", JNum "1")]] /\
  exists m', run toy ex_plain [OAttach "now" (builder_try_from "f" (JNum "7")); OFrom "x"; OAttach "now" (builder_new false)] = Ok m' /\
    List.length (attachment_iter m') = 4.
Proof. split; [vm_compute; reflexivity|]. eexists. split; [vm_compute; reflexivity|reflexivity]. Qed.
Example C33_example_bad : exists m a, In a (attachment_iter m) /\ at_format a = Some "application/json" /\ ad_json (at_data a) = None.
Proof. exists (append_attachment "t" ex_small (ab_map (builder_new false) (at_with_format "application/json"))). eexists. split; [left; reflexivity|]. split; reflexivity. Qed.

(** ** C37 *)

Theorem C37_panics : forall R m body atts, out_of_band_invitation R m body atts = Panic <-> ~ utf8_text body.
Proof.
  intros R m body atts. rewrite <- utf8_iff. unfold out_of_band_invitation. destruct (utf8_valid body).
  - split; [|congruence]. intros H. exfalso. revert H. apply C24_parsing.
  - split; [discriminate|reflexivity].
Qed.
Theorem C37_invitation : forall R m body atts m', out_of_band_invitation R m body atts = Ok m' ->
  dh_type (m_did m') = "https://didcomm.org/out-of-band/2.0/invitation" /\ jh_typ (m_jwm m') = DidCommRaw /\
  (exists j, document body j /\ reads R j (m_body m')) /\
  m_attachments m' = (m_attachments m ++ map (fun tb => if ab_timed (snd tb) then at_with_lastmod (fst tb) (ab_inner (snd tb)) else ab_inner (snd tb))
     (match atts with Some l => l | None => [] end))%list /\
  forall f, ~ In f [FType; FTyp; FBody; FAttachments] -> field_eq f m m'.
Proof.
  intros R m body atts m' H. unfold out_of_band_invitation in H. destruct (utf8_valid body); [|discriminate].
  apply set_body_iff in H. destruct H as [j [v [HP [_ [HR ->]]]]]. apply document_iff in HP. destruct atts as [l|].
  - rewrite fold_append. repeat (split; [reflexivity|]). split; [exists j; now split|]. split; [reflexivity|].
    intros f HF. destruct f; try (exfalso; apply HF; cbn; tauto); now fld.
  - repeat (split; [reflexivity|]). split; [exists j; now split|]. split; [cbn; now rewrite app_nil_r|].
    intros f HF. destruct f; try (exfalso; apply HF; cbn; tauto); now fld.
Qed.
(** It succeeds exactly for the bodies [body] accepts. *)
Theorem C37_accepts : forall R m body atts, utf8_text body ->
  ((exists m', out_of_band_invitation R m body atts = Ok m') <-> (exists j v, document body j /\ nested 127 j /\ reads R j v)).
Proof.
  intros R m body atts HU. apply utf8_iff in HU. unfold out_of_band_invitation. rewrite HU. split.
  - intros [m' H]. apply set_body_iff in H. destruct H as [j [v [H1 [H2 [H3 _]]]]]. apply document_iff in H1. eauto.
  - intros [j [v [H1 [H2 H3]]]]. apply document_iff in H1. eexists. apply set_body_iff. exists j, v. repeat split; eauto.
Qed.
Example C37_example : exists m', out_of_band_invitation (rt toy 0) ex_small "{""goal"":1}" (Some [("now", builder_new true)]) = Ok m' /\
  List.length (m_attachments m') = 1.
Proof. eexists. split; [vm_compute; reflexivity|reflexivity]. Qed.
Example C37_example_panic : out_of_band_invitation (rt toy 0) ex_small (String (chr 255) "") None = Panic.
Proof. apply C37_panics. rewrite <- utf8_iff. vm_compute. discriminate. Qed.

Print Assumptions C27_to.
Print Assumptions C27_to_twice.
Print Assumptions C27_to_history.
Print Assumptions C28_frame.
Print Assumptions C28_last_write.
Print Assumptions C28_fails.
Print Assumptions C28_resolved_kid.
Print Assumptions C29_lookup.
Print Assumptions C29_iterator.
Print Assumptions C29_empty_key.
Print Assumptions C29_frame.
Print Assumptions C29_history.
Print Assumptions C30_get_prior.
Print Assumptions C30_setters.
Print Assumptions C30_plain_round_trip.
Print Assumptions C31_reply_decorator.
Print Assumptions C31_reply_plain.
Print Assumptions C31_chain.
Print Assumptions C31_thread_exists.
Print Assumptions C31_unlinked.
Print Assumptions C31_unlinked_refuted.
Print Assumptions C31_parent.
Print Assumptions C32_uri.
Print Assumptions C32_ambiguous.
Print Assumptions C32_always_ambiguous.
Print Assumptions C32_injective.
Print Assumptions C33_history.
Print Assumptions C33_raw_payload.
Print Assumptions C33_deserialize.
Print Assumptions C33_deserialize_total.
Print Assumptions C33_one_bad.
Print Assumptions C33_plain_round_trip.
Print Assumptions C37_panics.
Print Assumptions C37_invitation.
Print Assumptions C37_accepts.
