(** Property C55: numbers with fraction or exponent in bodies. *)

From Coq Require Import Ascii String NArith ZArith List Bool Permutation Sorted Lia.
From Verif Require Import Bytes BytesFacts Utf8 Json JsonFacts SpecText SpecJson GrammarFacts Value ValueFacts Types Serde Message Envelope
  Spec SpecFacts CryptoLaws Examples BodyFacts PlainFacts PlainFacts2 RouteFacts Float FloatFacts SpecFloat FloatFacts2 FloatFacts3 FloatFacts4 PropPlain.
Import ListNotations.
Local Open Scope string_scope.
Local Open Scope Z_scope.

(** Reading is correctly rounded for tokens with a significand below 2^53 and a power of ten between -22 and 22. *)
Theorem C55_read : forall t neg s x, decimal t neg s x -> s < 2 ^ 53 -> -22 <= x <= 22 -> size t < 2000000000 ->
  exists v, read64 t = Some (neg, v) /\ decimal_rounds_to s x v.
Proof.
  intros t neg s x HD HS HX HT. pose proof (decimal_nonneg t neg s x HD) as S0. assert (M : 2 ^ 53 < max_u64) by reflexivity.
  destruct (read64_ok t neg s x HD ltac:(lia) ltac:(apply small_is64; lia) HX HT) as [_ HR]. eexists. split; [exact HR|]. now apply decimal_nearest.
Qed.

(** What any token is read as: the digits that fit 64 bits count, the rest is replaced by zeros or dropped; then that integer and
    the power of ten are rounded, and their product or quotient is rounded. *)
Theorem C55_read_all : forall neg i f fd e n s x, int_part i -> fraction f fd -> exponent e n -> collected i fd s x -> size i + size fd < 1000000000 ->
  exists a r, nearest_even (s * 2 ^ 1074) 1 a /\ scaled a (x + n) r /\ read64 ((if neg : bool then "-" else "") ++ i ++ f ++ e) = option_map (pair neg) r.
Proof. exact read_all. Qed.
(** Some digits are always collected. *)
Theorem C55_collected : forall i d, exists s x, collected i d s x.
Proof. exact collected_total. Qed.

(** Whatever is read is a binary64 value. *)
Theorem C55_read_value : forall t neg v, read64 t = Some (neg, v) -> binary64 v.
Proof. exact read64_is64. Qed.

(** What is printed denotes a number [n * 10^k] that rounds to the printed value; no shorter one does, and none of the same
    length is nearer. *)
Theorem C55_print : forall v, binary64 v -> 0 < v -> exists n k s x, decimal (print64 v) false s x /\ same_value n k s x /\
  decimal_rounds_to n k v /\ (forall n' k', 0 <= n' -> decimal_rounds_to n' k' v -> k' <= k) /\
  (forall n', 0 <= n' -> decimal_rounds_to n' k v -> nearer k v n n').
Proof. exact print_shortest. Qed.

(** Modest numbers keep their sign and their exact value, and what is printed is a fixed point. *)
Theorem C55_kept : forall t neg s x, decimal t neg s x -> modest s x -> size t < 2000000000 ->
  exists t' s' x', float_text t = Some t' /\ float_text t' = Some t' /\ decimal t' neg s' x' /\ same_value s x s' x'.
Proof. exact modest_stable. Qed.

(** What is assumed of floats everywhere else holds of this code. *)
Theorem C55_env : forall E, fl E = float_text -> (forall k V (l : list (string * V)), Permutation (ho E k V l) l) -> env_ok E.
Proof. intros E HF HO. split; [exact HO|]. intros t t' _ H. rewrite HF in H. now apply (float_law t). Qed.

(** A document with modest numbers is accepted as body, and the body has the content of the document. *)
Theorem C55_body : forall E k m t j, fl E = float_text -> document t j -> nested 127 j -> modest_numbers j -> ordinary j ->
  exists m', set_body (rt E k) m t = Ok m' /\ same_content j (m_body m') /\ stable (rt E 0) (m_body m').
Proof.
  intros E k m t j HF HD HN HM HO. apply document_iff in HD. pose proof (parse_num_wf _ _ HD) as HW.
  destruct (modest_vof (rt E k) HF j HW HM HO) as [v Hv]. apply vof_iff in Hv; [|exact HW]. destruct (modest_reads (rt E k) HF j v HW HM HO Hv) as [HS HC].
  exists (with_body m v). cbn [m_body with_body]. split; [apply set_body_iff; exists j, v; auto|]. split; [exact HC|]. now apply (stable_rt E k).
Qed.

(** Setting such a body keeps a message sendable, so all round trips apply to it without a hypothesis on floats. *)
Theorem C55_sendable : forall E k m t m' j, env_ok E -> fl E = float_text -> sendable E m -> utf8_text t ->
  document t j -> nested 126 j -> modest_numbers j -> ordinary j -> set_body (rt E k) m t = Ok m' -> sendable E m' /\ same_content j (m_body m').
Proof.
  intros E k m t m' j HE HF HS HU HD HN HM HO HB.
  apply document_iff in HD. pose proof (parse_num_wf _ _ HD) as HW. apply set_body_iff in HB. destruct HB as [j' [v [HP [_ [HR ->]]]]].
  assert (j' = j) by congruence. subst j'. destruct (modest_reads (rt E k) HF j v HW HM HO HR) as [HST HC].
  pose proof (reads_rust (rt E k) j v (env_drt E k HE) HW HR) as HV. destruct (reads_ordinary (rt E k) j v HW HO HR) as [_ HNV]. split; [|exact HC].
  apply with_body_sendable; [exact HS| |exact HV|apply nested_depth, HNV, HN|now apply (stable_rt E k)].
  apply json_strings_utf8. apply vof_iff in HR; [|exact HW]. eapply vof_utf8; [|exact HR]. eapply parse_utf8; [|exact HD]. now apply utf8_iff.
Qed.
(** For instance: the received body still has the content of the document. *)
Theorem C55_plain_round_trip : forall E k m t m' j sk pk spk, env_ok E -> fl E = float_text -> sendable E m -> utf8_text t ->
  document t j -> nested 126 j -> modest_numbers j -> ordinary j -> set_body (rt E k) m t = Ok m' ->
  jh_typ (m_jwm m) <> DidCommJwe -> jh_typ (m_jwm m) <> DidCommJws -> avoids envelope_names (dh_other (m_did m)) ->
  exists m2, receive E (as_raw_json m') sk pk spk = Ok m2 /\ same_message m' m2 /\ same_content j (m_body m2).
Proof.
  intros E k m t m' j sk pk spk HE HF HS HU HD HN HM HO HB T1 T2 HA. destruct (C55_sendable E k m t m' j HE HF HS HU HD HN HM HO HB) as [HX HC].
  apply set_body_iff in HB. destruct HB as [j' [v [_ [_ [_ ->]]]]].
  destruct (C01_plain_round_trip E (with_body m v) sk pk spk HE HX T1 T2 HA) as [m2 [H1 [H2 _]]]. exists m2. split; [exact H1|]. split; [exact H2|].
  destruct H2 as [_ [_ [_ [HBODY _]]]]. rewrite <- HBODY. exact HC.
Qed.

(** Outside the modest numbers this fails: the text given back for a body need not be read as the same body.  So the hypothesis
    [stable] of C03_get_body_canonical cannot be dropped. *)
Definition real (E : env) : env :=
  {| x_pub := x_pub E; x_dh := x_dh E; xc_enc := xc_enc E; xc_dec := xc_dec E; gcm_enc := gcm_enc E; gcm_dec := gcm_dec E;
     cbc_enc := cbc_enc E; sig_sign := sig_sign E; sig_verify := sig_verify E; resolve := resolve E; fl := float_text; ho := ho E |}.
Lemma real_env : forall E, env_ok E -> env_ok (real E).
Proof. intros E H. apply C55_env; [reflexivity|exact (eo_order E H)]. Qed.
Lemma drift1 : float_text "750000000000002e1" = Some "7500000000000020.0".
Proof. vm_compute. reflexivity. Qed.
Lemma drift2 : float_text "7500000000000020.0" = Some "7500000000000019.0".
Proof. vm_compute. reflexivity. Qed.
Lemma one_number : forall E m t t', fl E = float_text -> parse ("[" ++ t ++ "]") = Some (JArr [JNum t]) -> tok_int t = None -> float_text t = Some t' ->
  set_body (rt E 0) m ("[" ++ t ++ "]") = Ok (with_body m (JArr [JNum t'])).
Proof.
  intros E m t t' HF HP HT H. pose proof (parse_num_wf _ _ HP) as HW. apply set_body_iff. exists (JArr [JNum t]), (JArr [JNum t']). split; [exact HP|]. split.
  - apply nested_depth. cbn. lia.
  - split; [|reflexivity]. apply vof_iff; [exact HW|]. rewrite vof_arr. cbn [map]. rewrite vof_num. replace (vnum (rt E 0) t) with (Some t'); [reflexivity|].
    unfold vnum. rewrite HT. cbn [rt fnorm]. now rewrite HF.
Qed.
Theorem C03_float_drift_refuted : exists E m t m1 m2, env_ok E /\ fl E = float_text /\ set_body (rt E 0) m t = Ok m1 /\
  set_body (rt E 0) m (get_body m1) = Ok m2 /\ get_body m2 <> get_body m1.
Proof.
  exists (real toy), ex_small, "[750000000000002e1]", (with_body ex_small (JArr [JNum "7500000000000020.0"])), (with_body ex_small (JArr [JNum "7500000000000019.0"])).
  split; [exact (real_env toy toy_env)|]. split; [reflexivity|].
  split; [apply (one_number (real toy) ex_small "750000000000002e1"); [reflexivity|vm_compute; reflexivity|reflexivity|exact drift1]|].
  split; [apply (one_number (real toy) ex_small "7500000000000020.0"); [reflexivity|vm_compute; reflexivity|reflexivity|exact drift2]|].
  vm_compute. discriminate.
Qed.

(** ** A case *)

Ltac char_tac := first [apply between_code|apply sall_digits]; vm_compute; repeat split; discriminate.
Example C55_example_token : decimal "-2.50" true 250 (-2) /\ modest 250 (-2) /\ decimal "15e-7" false 15 (-7) /\ decimal "6.02E+22" false 602 20 /\ modest 602 20.
Proof.
  split; [apply (dc_intro true "2" ".50" "50" "" 0)|].
  - apply (ip_other "2" ""); char_tac.
  - apply (fr_some "50"). now apply digits_intro.
  - apply ex_none.
  - split; [split; [reflexivity|split; lia]|]. split; [apply (dc_intro false "15" "" "" "e-7" (-7))|].
    + apply (ip_other "1" "5"); char_tac.
    + apply fr_none.
    + apply (ex_minus "e" "7"); [now left|now apply digits_intro].
    + split; [apply (dc_intro false "6" ".02" "02" "E+22" 22)|].
      * apply (ip_other "6" ""); char_tac.
      * apply (fr_some "02"). now apply digits_intro.
      * apply (ex_plus "E" "22"); [now right|now apply digits_intro].
      * split; [reflexivity|]. split; [lia|]. intros _. right. split; vm_compute; [discriminate|reflexivity].
Qed.
Definition ex_document : string := " { ""b"" : [ -2.50, 18446744073709551615 ] , ""a"" : 6.02E+22 } ".
Definition ex_tree : json := JObj [("b", JArr [JNum "-2.50"; JNum "18446744073709551615"]); ("a", JNum "6.02E+22")].
Lemma ex_tree_modest : document ex_document ex_tree /\ nested 126 ex_tree /\ modest_numbers ex_tree /\ ordinary ex_tree.
Proof.
  destruct C55_example_token as [D1 [M1 [_ [D2 M2]]]].
  split; [apply document_iff; vm_compute; reflexivity|]. split; [apply nested_depth; vm_compute; lia|].
  split; [|ordinary_val].
  apply mn_obj. intros kv [<-|[<-|[]]]; cbn [snd].
  - apply mn_arr. intros y [<-|[<-|[]]].
    + apply mn_num. split; [reflexivity|]. exists true, 250, (-2). split; assumption.
    + apply mn_int. left. exists 18446744073709551615%N. split; [lia|reflexivity].
  - apply mn_num. split; [reflexivity|]. exists false, 602, 20. split; assumption.
Qed.
Example C55_example : exists m', set_body (rt (real toy) 0) ex_small ex_document = Ok m' /\ same_content ex_tree (m_body m') /\ stable (rt (real toy) 0) (m_body m').
Proof.
  destruct ex_tree_modest as [H1 [H2 [H3 H4]]]. apply C55_body; [reflexivity|exact H1| |exact H3|exact H4]. apply nested_depth. apply nested_depth in H2. lia.
Qed.
Example C55_example_sent : forall sk pk spk, exists m' m2, set_body (rt (real toy) 0) ex_small ex_document = Ok m' /\
  receive (real toy) (as_raw_json m') sk pk spk = Ok m2 /\ same_content ex_tree (m_body m2).
Proof.
  intros sk pk spk. destruct ex_tree_modest as [H1 [H2 [H3 H4]]]. destruct C55_example as [m' [HB _]]. exists m'.
  assert (HS : sendable (real toy) ex_small).
  { destruct ex_small_sendable as [S1 S2 S3 S4 S5 S6 S7]. constructor; try assumption. apply st_obj; [plain_tac|]. intros kv [<-|[]]. apply st_str. }
  assert (HU : utf8_text ex_document) by (apply utf8_iff; vm_compute; reflexivity).
  assert (T1 : jh_typ (m_jwm ex_small) <> DidCommJwe) by discriminate. assert (T2 : jh_typ (m_jwm ex_small) <> DidCommJws) by discriminate.
  destruct (C55_plain_round_trip (real toy) 0 ex_small ex_document m' ex_tree sk pk spk (real_env toy toy_env) eq_refl HS HU H1 H2 H3 H4 HB T1 T2 ex_small_free) as [m2 [Q1 [_ Q2]]].
  exists m2. split; [exact HB|]. split; [exact Q1|exact Q2].
Qed.
(** Digits beyond 64 bits: the result is not the value nearest to the number (1.8446744073709552). *)
Example C55_example_long : collected "1" "8446744073709551616" 1844674407370955161 (-18) /\ collected "18446744073709551616" "" 1844674407370955161 1 /\
  collected "18446744073709551616" "5" 18446744073709551615 0 /\ collected "0" "18446744073709551615" 18446744073709551615 (-20) /\
  float_text "1.8446744073709551616" = Some "1.8446744073709553" /\ float_text "1.8446744073709551615" = Some "1.8446744073709551".
Proof.
  split; [|split; [|split; [|split; [|split; vm_compute; reflexivity]]]].
  - apply (col "1" "" "844674407370955161" "6"); (split; [reflexivity|]); intros c r Q; [discriminate Q|]. injection Q as <- <-. vm_compute. discriminate.
  - apply (col "1844674407370955161" "6" "" ""); (split; [reflexivity|]); intros c r Q; [|discriminate Q]. injection Q as <- <-. vm_compute. discriminate.
  - apply (col "1844674407370955161" "6" "5" ""); (split; [reflexivity|]); intros c r Q; [|discriminate Q]. injection Q as <- <-. vm_compute. discriminate.
  - apply (col "0" "" "18446744073709551615" ""); (split; [reflexivity|]); intros c r Q; discriminate Q.
Qed.
Example C55_example_text : float_text "-2.50" = Some "-2.5".
Proof. vm_compute. reflexivity. Qed.

Print Assumptions C55_read.
Print Assumptions C55_read_all.
Print Assumptions C55_collected.
Print Assumptions C55_read_value.
Print Assumptions C55_print.
Print Assumptions C55_kept.
Print Assumptions C55_env.
Print Assumptions C55_body.
Print Assumptions C55_sendable.
Print Assumptions C55_plain_round_trip.
Print Assumptions C03_float_drift_refuted.
