(** Property C63: what the member name that serde_json keeps for itself does to bodies. *)

From Coq Require Import Ascii String Arith NArith List Bool Permutation Sorted Lia.
From Verif Require Import Bytes BytesFacts Utf8 Json JsonFacts SpecJson GrammarFacts Value ValueFacts Types Serde SerdeFacts Message Envelope
  Spec SpecFacts SpecText SpecDecode CryptoLaws Examples DecodeFacts BodyFacts PlainFacts PlainFacts2 CodecFacts ReadFacts OrderFacts PropValue PropPlain PropDecode.
Import ListNotations.
Local Open Scope string_scope.

(** ** C63 *)

(** [x] is [j] or occurs in it. *)
Inductive part : json -> json -> Prop :=
| pt_self : forall j, part j j
| pt_arr : forall l y x, In y l -> part y x -> part (JArr l) x
| pt_obj : forall l kv x, In kv l -> part (snd kv) x -> part (JObj l) x.

(** An object that starts with the reserved name but does not stand for a text. *)
Definition spoiled (j : json) : Prop :=
  exists v r, j = JObj ((reserved_name, v) :: r) /\ (r <> [] \/ forall e s, v <> JStr e s).

Lemma spoiled_unread : forall R x v, spoiled x -> ~ reads R x v.
Proof.
  intros R x v [y [r [-> H]]] HR. inversion HR as [| | | | |? ? HP|e s j ? HD HN HV]; subst.
  - exact (HP reserved_name y r eq_refl eq_refl).
  - destruct H as [H|H]; [now apply H|now apply (H e s)].
Qed.
Lemma part_reads : forall j x, part j x -> forall R v, reads R j v -> (exists w, reads R x w) \/ exists s e, j = JObj [(reserved_name, JStr e s)].
Proof.
  intros j x H. induction H as [j|l y x HI HP IH|l kv x HI HP IH]; intros R v HR.
  - left. now exists v.
  - left. inversion HR as [| | | |? ? HF| |]; subst. destruct (Forall2_In_l _ _ _ _ _ _ HF HI) as [w [_ HW]].
    destruct (IH R w HW) as [G|[s [e ->]]]; [exact G|]. inversion HP as [? E1|? ? ? E1 E2|? ? ? G1 G2]; subst; [now exists w|].
    destruct G1 as [<-|[]]. cbn [snd] in G2. inversion G2; subst. eexists. constructor.
  - inversion HR as [| | | | |? ? PS H1 H2 H3 H4|e s j ? HD HN HV]; subst.
    + left. destruct (H4 kv HI) as [w HW]. destruct (IH R w HW) as [G|[s [e G]]]; [exact G|]. rewrite G in *.
      inversion HP as [? E1|? ? ? E1 E2|? ? ? G1 G2]; subst; [now exists w|]. destruct G1 as [<-|[]]. cbn [snd] in G2. inversion G2; subst. eexists. constructor.
    + right. now exists s, e.
Qed.
Lemma spoiled_part_unread : forall j x, part j x -> spoiled x -> forall R v, ~ reads R j v.
Proof.
  intros j x HP HS R v HR. destruct (part_reads j x HP R v HR) as [[w HW]|[s [e ->]]]; [exact (spoiled_unread R x w HS HW)|].
  inversion HP as [? E1|? ? ? E1 E2|? kv ? G1 G2]; subst.
  - exact (spoiled_unread R _ v HS HR).
  - destruct G1 as [<-|[]]. cbn [snd] in G2. inversion G2; subst. destruct HS as [y [r [G _]]]. discriminate G.
Qed.

(** An object whose only member has the reserved name stands for the text it carries. *)
Theorem C63_contained : forall R m t e s, document t (JObj [(reserved_name, JStr e s)]) -> set_body R m t = set_body R m s.
Proof.
  intros R m t e s HD. apply document_iff in HD.
  assert (G : forall m', set_body R m t = Ok m' <-> set_body R m s = Ok m').
  { intros m'. rewrite !set_body_iff. split.
    - intros [j [v [HP [HN [HR HM]]]]]. rewrite HD in HP. injection HP as <-. inversion HR as [| | | | |? ? PS|e' s' j v' D1 D2 D3]; subst.
      + now elim (PS reserved_name (JStr e s) [] eq_refl).
      + exists j, v. apply document_iff in D1. now split.
    - intros [j [v [HP [HN [HR HM]]]]]. exists (JObj [(reserved_name, JStr e s)]), v. split; [exact HD|]. split; [|split; [|exact HM]].
      + constructor. intros kv [<-|[]]. constructor.
      + apply (rd_raw R e s j v); [now apply document_iff|exact HN|exact HR]. }
  destruct (set_body R m t) as [m1| |] eqn:E1.
  - symmetry. now apply G.
  - destruct (set_body R m s) as [m2| |] eqn:E2; [now apply G| |].
    + rewrite set_body_err in E1, E2; [congruence|intros m' H; congruence|intros m' H; congruence].
    + rewrite set_body_err in E2; [discriminate|intros m' H; congruence].
  - rewrite set_body_err in E1; [discriminate|intros m' H; congruence].
Qed.

(** Otherwise an object that starts with the reserved name makes the text unacceptable, wherever it occurs. *)
Theorem C63_refused : forall R m t j x, document t j -> part j x -> spoiled x -> set_body R m t = Err ESerde.
Proof.
  intros R m t j x HD HP HS. apply set_body_err. intros m' H. apply set_body_iff in H. destruct H as [j' [v [HJ [_ [HR _]]]]].
  apply document_iff in HD. assert (j' = j) by congruence. subst j'. exact (spoiled_part_unread j x HP HS R v HR).
Qed.

(** No stored body contains an object that stands for a text. *)
Lemma reads_no_text : forall R j v, reads R j v -> forall x y, part v x -> x <> JObj [(reserved_name, y)].
Proof.
  intros R. apply (json_raw_ind (fun j => forall v, reads R j v -> forall x y, part v x -> x <> JObj [(reserved_name, y)])).
  - intros v HR x y HP ->. inversion HR; subst. inversion HP.
  - intros b v HR x y HP ->. inversion HR; subst. inversion HP.
  - intros t v HR x y HP ->. inversion HR; subst. inversion HP.
  - intros e s v HR x y HP ->. inversion HR; subst. inversion HP.
  - intros l IH v HR x y HP ->. inversion HR as [| | | |? l' HF| |]; subst. inversion HP as [|? z ? HI HZ|]; subst.
    destruct (Forall2_In_r _ _ _ _ _ _ HF HI) as [w [HW1 HW2]]. rewrite Forall_forall in IH. exact (IH w HW1 z HW2 _ y HZ eq_refl).
  - intros l IH IR v HR x y HP ->. inversion HR as [| | | | |? es' PS H1 H2 H3 H4|e s j ? HD HN HV]; subst.
    + inversion HP as [? EQ|? ? ? ? ?|? kv ? HI HZ]; subst.
      * destruct l as [|[k z] r].
        -- destruct (H2 reserved_name y (or_introl eq_refl)) as [j [[b [a [G _]]] _]]. destruct b; discriminate G.
        -- destruct (H3 k (or_introl eq_refl)) as [G|[]]. apply (PS k z r eq_refl). now symmetry.
      * destruct kv as [k z]. destruct (H2 k z HI) as [j [[b [a [EQ _]]] HJ]]. rewrite Forall_forall in IH.
        apply (IH (k, j)) with (v := z) (x := JObj [(reserved_name, y)]) (y := y); [|exact HJ|exact HZ|reflexivity]. rewrite EQ. apply in_or_app. right. now left.
    + apply (IR s j) with (v := v) (x := JObj [(reserved_name, y)]) (y := y); [reflexivity|now apply document_iff|exact HV|exact HP|reflexivity].
Qed.
Theorem C63_never_stored : forall R m t m' y, set_body R m t = Ok m' -> ~ part (m_body m') (JObj [(reserved_name, y)]).
Proof.
  intros R m t m' y H HP. apply set_body_iff in H. destruct H as [j [v [_ [_ [HR ->]]]]]. exact (reads_no_text R j v HR _ y HP eq_refl).
Qed.
Lemma stored_spoiled : forall R m t m' y r, set_body R m t = Ok m' -> part (m_body m') (JObj ((reserved_name, y) :: r)) -> spoiled (JObj ((reserved_name, y) :: r)).
Proof.
  intros R m t m' y r H HP. exists y, r. split; [reflexivity|]. left. intros ->. exact (C63_never_stored R m t m' y H HP).
Qed.

(** A stored body with an object that starts with the reserved name (after sorting) is lost: neither is its text accepted
    again, nor is the message received. *)
Theorem C63_text_lost : forall E k k' m t m' m2 y r, env_ok E -> set_body (rt E k) m t = Ok m' -> part (m_body m') (JObj ((reserved_name, y) :: r)) ->
  set_body (rt E k') m2 (get_body m') = Err ESerde.
Proof.
  intros E k k' m t m' m2 y r HE H HP. pose proof (stored_spoiled _ _ _ _ _ _ H HP) as HS. apply (C63_refused (rt E k') m2 (get_body m') (m_body m') (JObj ((reserved_name, y) :: r))); [|exact HP|exact HS].
  apply set_body_iff in H. destruct H as [j [v [HJ [_ [HR ->]]]]]. cbn [m_body with_body]. apply document_iff. unfold get_body. cbn [m_body with_body].
  apply parse_print. apply rust_value_wf. apply (reads_rust (rt E k) j v (env_drt E k HE)); [|exact HR]. eapply parse_num_wf; eauto.
Qed.
Theorem C63_message_lost : forall E R m t m' y r sk pk spk, set_body R m t = Ok m' -> part (m_body m') (JObj ((reserved_name, y) :: r)) ->
  rust_message m' -> avoids envelope_names (dh_other (m_did m')) -> receive E (as_raw_json m') sk pk spk = Err ESerde.
Proof.
  intros E R m t m' y r sk pk spk H HP HM HA. pose proof (stored_spoiled _ _ _ _ _ _ H HP) as HS. apply unreadable_receive; [exact HM|exact HA|].
  intros R'. unfold message_from_str. destruct (raw_json_text m' HM) as [HJ _]. rewrite HJ. cbn [obind de_message].
  destruct (dopt _ _); [|reflexivity]. cbn [obind]. destruct (dreq _ (member (message_entries m') "body")) as [b|] eqn:EB; [|reflexivity].
  exfalso. apply dreq_some in EB. destruct EB as [j [E1 E2]]. apply member_got_In in E1.
  destruct (message_known_entries m') as [_ [_ [HB _]]]. apply In_occ in HB. rewrite E1 in HB. destruct HB as [->|[]].
  apply body_reader in E2; [|apply wf_num_wf, rust_value_wf, (rm_body _ HM)]. destruct E2 as [_ E2]. exact (spoiled_part_unread _ _ HP HS R' b E2).
Qed.

(** Texts are never replaced silently: if the text of a stored body of integers is accepted, it gives the same body. *)
Lemma unspoiled_stable : forall R v, rust_value v -> integers_only v -> (forall y r, ~ part v (JObj ((reserved_name, y) :: r))) -> stable R v.
Proof.
  intros R v HV HI. induction HI as [| |t Ht| |l HL IH|l HL IH]; intros HN; try constructor.
  - inversion HV; subst. now apply vnum_int.
  - intros x Hx. inversion HV; subst. apply IH; auto. intros y r HP. apply (HN y r). eapply pt_arr; eauto.
  - intros k y r ->. intros ->. apply (HN y r). constructor.
  - intros kv Hx. inversion HV; subst. apply IH; auto. intros y r HP. apply (HN y r). eapply pt_obj; eauto.
Qed.
Theorem C63_never_replaced : forall E k k' m t m' m2 m2', env_ok E -> set_body (rt E k) m t = Ok m' -> integers_only (m_body m') ->
  set_body (rt E k') m2 (get_body m') = Ok m2' -> m_body m2' = m_body m'.
Proof.
  intros E k k' m t m' m2 m2' HE H HI H2.
  assert (HN : forall y r, ~ part (m_body m') (JObj ((reserved_name, y) :: r))).
  { intros y r HP. rewrite (C63_text_lost E k k' m t m' m2 y r HE H HP) in H2. discriminate H2. }
  pose proof H as H'. apply set_body_iff in H'. destruct H' as [j [v [HJ [_ [HR ->]]]]]. cbn [m_body with_body] in *.
  pose proof (reads_rust (rt E k) j v (env_drt E k HE) (parse_num_wf _ _ HJ) HR) as HV. pose proof (unspoiled_stable (rt E 0) v HV HI HN) as HS.
  apply set_body_iff in H2. destruct H2 as [j2 [v2 [HJ2 [HN2 [HR2 ->]]]]]. cbn [m_body with_body].
  unfold get_body in HJ2. cbn [m_body with_body] in HJ2. rewrite parse_print in HJ2 by now apply rust_value_wf. apply some_inj in HJ2. subst j2.
  apply vof_iff in HR2; [|now apply wf_num_wf, rust_value_wf].
  destruct (rust_canon E k' v HV HS) as [C1 [C2 C3]]. rewrite vof_canon in HR2 by assumption. now apply some_inj in HR2.
Qed.

(** Through contained texts a body can be nested more deeply than any limit. *)
Fixpoint towers (n : nat) : string :=
  match n with
  | O => "null"
  | S n' => print (JArr [JObj [(reserved_name, JStr (needs_escape (towers n')) (towers n'))]])
  end.
Theorem C63_unlimited_depth : forall R m n, exists m', set_body R m (towers n) = Ok m' /\ m_body m' = arrays n.
Proof.
  intros R m n. exists (with_body m (arrays n)). split; [|reflexivity].
  assert (G : exists j, parse (towers n) = Some j /\ nested 127 j /\ reads R j (arrays n)).
  { induction n as [|n [j [HP [HN HR]]]].
    - exists JNull. split; [reflexivity|]. split; constructor.
    - exists (JArr [JObj [(reserved_name, JStr (needs_escape (towers n)) (towers n))]]). split; [|split].
      + cbn [towers]. apply parse_print. apply wf_arr. constructor; [|constructor]. apply wf_obj. constructor; [|constructor]. cbn [snd wf_json]. reflexivity.
      + constructor. intros x [<-|[]]. constructor. intros kv [<-|[]]. constructor.
      + cbn [arrays]. constructor. constructor; [|constructor]. eapply rd_raw; [apply document_iff; exact HP|exact HN|exact HR]. }
  apply set_body_iff. destruct G as [j [HP [HN HR]]]. now exists j, (arrays n).
Qed.

(** Without the reserved name none of this happens: bodies stay without it and within the limit. *)
Theorem C63_ordinary_text : forall R m t j m', document t j -> ordinary j -> set_body R m t = Ok m' -> ordinary (m_body m') /\ nested 127 (m_body m').
Proof.
  intros R m t j m' HD HO H. apply document_iff in HD. apply set_body_iff in H. destruct H as [j' [v [HP [HN [HR ->]]]]]. assert (j' = j) by congruence. subst j'.
  destruct (reads_ordinary R j v (parse_num_wf _ _ HP) HO HR) as [H1 H2]. split; [exact H1|now apply H2].
Qed.
Theorem C63_ordinary_received : forall E text j sk pk spk m, env_ok E -> document text j -> ordinary_body j -> receive E text sk pk spk = Ok m ->
  (exists t, get_message_type (rt E 0) text = Ok t /\ t <> DidCommJwe /\ t <> DidCommJws) -> ordinary (m_body m) /\ nested 126 (m_body m).
Proof.
  intros E text j sk pk spk m HE HD HO H [t [HT [N1 N2]]].
  destruct (C56_plain_received E text sk pk spk m t HE HT N1 N2 H) as [j' [HD' HM]]. apply document_iff in HD, HD'. assert (j' = j) by congruence. subst j'.
  destruct HM as [es [-> [_ [[x [Hx [HN HR]]] _]]]]. apply given_body in Hx. pose proof (parse_num_wf _ _ HD) as HW. apply num_wf_obj in HW. rewrite Forall_forall in HW.
  destruct (reads_ordinary (rt E 0) x (m_body m) (HW _ Hx) (HO es x eq_refl Hx) HR) as [H1 H2]. split; [exact H1|now apply H2].
Qed.
(** So an accepted plain text without the reserved name in its body can be sent on. *)
Theorem C63_resend : forall E text j sk pk spk m sk' pk' spk', env_ok E -> rust_string text -> document text j -> ordinary_body j ->
  receive E text sk pk spk = Ok m -> (exists t, get_message_type (rt E 0) text = Ok t /\ t <> DidCommJwe /\ t <> DidCommJws) ->
  dh_to (m_did m) <> [] -> integers_only (m_body m) ->
  exists m', receive E (as_raw_json m) sk' pk' spk' = Ok m' /\ same_message m m' /\ flags_reset m'.
Proof.
  intros E text j sk pk spk m sk' pk' spk' HE HU HD HO HR HT HTo HI.
  destruct (C63_ordinary_received E text j sk pk spk m HE HD HO HR HT) as [H1 H2].
  eapply C43_resend; try eassumption. apply integers_stable; [|exact HI|exact H1].
  pose proof (receive_decoded E text sk pk spk m HE HU HR) as HDc. apply (rm_body _ (dc_rust _ HDc)).
Qed.

(** ** Cases *)

(** A text inside a text; the reserved name second is accepted, is printed first and is then refused. *)
Example C63_contained_example :
  document "{""$serde_json::private::RawValue"":""[1, 2]""}" (JObj [(reserved_name, JStr false "[1, 2]")]) /\
  exists m', set_body (rt toy 0) ex_small "{""$serde_json::private::RawValue"":""[1, 2]""}" = Ok m' /\ get_body m' = "[1,2]".
Proof. split; [apply document_iff; vm_compute; reflexivity|]. eexists. split; vm_compute; reflexivity. Qed.
Example C63_refused_example :
  document "[{""$serde_json::private::RawValue"":5}]" (JArr [JObj [(reserved_name, JNum "5")]]) /\
  part (JArr [JObj [(reserved_name, JNum "5")]]) (JObj [(reserved_name, JNum "5")]) /\ spoiled (JObj [(reserved_name, JNum "5")]).
Proof.
  split; [apply document_iff; vm_compute; reflexivity|]. split.
  - eapply pt_arr; [now left|]. constructor.
  - exists (JNum "5"), []. split; [reflexivity|]. right. discriminate.
Qed.
Definition ex_reserved : string := "{""a"":1,""$serde_json::private::RawValue"":""2""}".
Definition ex_reserved_body : message := with_body ex_small (JObj [(reserved_name, JStr false "2"); ("a", JNum "1")]).
Example C63_lost_example : set_body (rt toy 0) ex_small ex_reserved = Ok ex_reserved_body /\
  part (m_body ex_reserved_body) (JObj [(reserved_name, JStr false "2"); ("a", JNum "1")]) /\
  rust_message ex_reserved_body /\ avoids envelope_names (dh_other (m_did ex_reserved_body)) /\
  receive toy (as_raw_json ex_reserved_body) None None None = Err ESerde /\
  get_body ex_reserved_body = "{""$serde_json::private::RawValue"":""2"",""a"":1}".
Proof.
  assert (H : set_body (rt toy 0) ex_small ex_reserved = Ok ex_reserved_body) by (vm_compute; reflexivity).
  assert (P : part (m_body ex_reserved_body) (JObj [(reserved_name, JStr false "2"); ("a", JNum "1")])) by constructor.
  assert (RM : rust_message ex_reserved_body) by (unfold ex_reserved_body, ex_small; rust_msg).
  assert (AV : avoids envelope_names (dh_other (m_did ex_reserved_body))) by (exact ex_small_free).
  split; [exact H|]. split; [exact P|]. split; [exact RM|]. split; [exact AV|]. split; [|vm_compute; reflexivity].
  exact (C63_message_lost toy (rt toy 0) ex_small ex_reserved ex_reserved_body _ _ None None None H P RM AV).
Qed.
(** The order of members counts for it, and the round trip of C03 needs the absence of the name. *)
Theorem C63_order_refuted : exists t t' j j' m, document t j /\ document t' j' /\ reordered j j' /\
  (exists m', set_body (rt toy 0) m t = Ok m') /\ set_body (rt toy 0) m t' = Err ESerde.
Proof.
  exists ex_reserved, (get_body ex_reserved_body), (JObj [("a", JNum "1"); (reserved_name, JStr false "2")]), (m_body ex_reserved_body), ex_small.
  split; [apply document_iff; vm_compute; reflexivity|]. split; [apply document_iff; vm_compute; reflexivity|]. split; [|split].
  - cbn [m_body ex_reserved_body with_body]. eapply ro_obj; [nodup_tac|apply perm_swap|]. repeat constructor.
  - exists ex_reserved_body. vm_compute. reflexivity.
  - vm_compute. reflexivity.
Qed.
Theorem C63_round_trip_refuted : exists t m m', set_body (rt toy 0) m t = Ok m' /\ integers_only (m_body m') /\
  forall m2, set_body (rt toy 0) m2 (get_body m') = Err ESerde.
Proof.
  exists ex_reserved, ex_small, ex_reserved_body. split; [vm_compute; reflexivity|]. split.
  - cbn. constructor. intros kv [<-|[<-|[]]]; constructor. left. exists 1%N. split; [now vm_compute|reflexivity].
  - intros m2. vm_compute. reflexivity.
Qed.
Example C63_resend_example : exists j, document ex_foreign j /\ ordinary_body j /\
  exists m, receive toy ex_foreign None None None = Ok m /\ integers_only (m_body m) /\ dh_to (m_did m) <> [].
Proof.
  eexists. split; [apply document_iff; vm_compute; reflexivity|]. split.
  - intros es x EQ HI. injection EQ as <-. cbn in HI. repeat (destruct HI as [HI|HI]; [try discriminate HI|]); [|destruct HI]. injection HI as <-. ordinary_val.
  - eexists. split; [vm_compute; reflexivity|]. split; [|discriminate]. cbn. constructor. intros kv [<-|[<-|[]]]; constructor; left; [exists 2%N|exists 1%N]; (split; [now vm_compute|reflexivity]).
Qed.

Print Assumptions C63_contained.
Print Assumptions C63_refused.
Print Assumptions C63_never_stored.
Print Assumptions C63_text_lost.
Print Assumptions C63_message_lost.
Print Assumptions C63_never_replaced.
Print Assumptions C63_unlimited_depth.
Print Assumptions C63_ordinary_text.
Print Assumptions C63_ordinary_received.
Print Assumptions C63_resend.
Print Assumptions C63_order_refuted.
Print Assumptions C63_round_trip_refuted.
