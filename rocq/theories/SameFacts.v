(** Equal messages are written as the same document up to order, and iteration orders do not change what is read. *)

From Coq Require Import Ascii String Arith NArith List Bool Permutation Lia.
From Verif Require Import Bytes BytesFacts Base64 Utf8 Json JsonFacts SpecJson GrammarFacts Value ValueFacts Types Serde Message Envelope Spec SpecFacts SpecText SpecSign SpecSeal SpecKey SpecDecode
  SpecEnv CryptoLaws SerdeFacts DecodeFacts CodecFacts BodyFacts PlainFacts PlainFacts2 SealFacts3 KeyFacts ReadFacts ReadFacts2 ReadFacts3 OrderFacts OrderFacts2.
Import ListNotations.
Local Open Scope string_scope.

(** ** Names of serialised objects *)

Inductive picked {V} : list string -> list (string * V) -> Prop :=
| pk_nil : picked [] []
| pk_take : forall k v ns es, picked ns es -> picked (k :: ns) ((k, v) :: es)
| pk_skip : forall k ns es, picked ns es -> picked (k :: ns) es.
Lemma picked_in : forall V ns (es : list (string * V)) k, picked ns es -> In k (map fst es) -> In k ns.
Proof. intros V ns es k H. induction H; cbn; intros G; [exact G|destruct G as [G|G]; auto|auto]. Qed.
Lemma picked_unique : forall V ns (es : list (string * V)), picked ns es -> NoDup ns -> unique_keys es.
Proof.
  intros V ns es H. unfold unique_keys. induction H as [|k v ns es H IH|k ns es H IH]; intros HN; [constructor| |]; inversion HN; subst; [|auto].
  cbn. constructor; [|auto]. intros G. apply (picked_in _ _ _ _ H) in G. contradiction.
Qed.
Lemma picked_app : forall V ns (es : list (string * V)) ns' es', picked ns es -> picked ns' es' -> picked (ns ++ ns') (es ++ es').
Proof. intros V ns es ns' es' H H'. induction H; cbn; [exact H'|now constructor|now constructor]. Qed.
Lemma picked_sopt : forall A k (f : A -> json) o, picked [k] (sopt k f o).
Proof. intros A k f [a|]; cbn; repeat constructor. Qed.
Lemma picked_svec : forall A k (f : A -> json) l, picked [k] (svec k f l).
Proof. intros A k f [|a l]; cbn; repeat constructor. Qed.
Lemma picked_one : forall k (x : json), picked [k] [(k, x)].
Proof. intros. repeat constructor. Qed.
Lemma picked_smap : forall m, picked (map fst m) (smap m).
Proof. intros m. induction m as [|[k v] m IH]; cbn; [constructor|]. now constructor. Qed.
Lemma NoDup_two : forall (a b : list string), NoDup a -> NoDup b -> (forall k, In k b -> ~ In k a) -> NoDup (a ++ b).
Proof.
  intros a b Ha Hb HD. induction Ha as [|x a Hx Ha IH]; [exact Hb|]. cbn. constructor.
  - rewrite in_app_iff. intros [G|G]; [contradiction|]. apply (HD x G). now left.
  - apply IH. intros k Hk G. apply (HD k Hk). now right.
Qed.
Ltac nodup_names := repeat (constructor; [cbn; intuition discriminate|]); constructor.

Definition jwk_list (k : jwk) : list (string * json) :=
  (sopt "kty" jstr (jk_kty k) ++ sopt "use" jstr (jk_use k) ++ sopt "crv" jstr (jk_crv k)
   ++ [("key_ops", JArr (map (fun o => jstr (key_ops_name o)) (jk_key_ops k))); ("alg", jstr (key_algorithm_name (jk_alg k)))]
   ++ sopt "kid" jstr (jk_kid k) ++ sopt "epk" ser_epk (jk_epk k) ++ smap (jk_other k))%list.
Lemma jwk_unique : forall k, rust_jwk k -> jwk_plain k -> unique_keys (jwk_list k).
Proof.
  intros k HR HP.
  apply (picked_unique _ (["kty"; "use"; "crv"; "key_ops"; "alg"; "kid"; "epk"] ++ map fst (jk_other k))%list).
  - apply (picked_app _ ["kty"]); [apply picked_sopt|]. apply (picked_app _ ["use"]); [apply picked_sopt|]. apply (picked_app _ ["crv"]); [apply picked_sopt|].
    apply (picked_app _ ["key_ops"; "alg"]); [repeat constructor|]. apply (picked_app _ ["kid"]); [apply picked_sopt|]. apply (picked_app _ ["epk"]); [apply picked_sopt|].
    apply picked_smap.
  - apply NoDup_two; [nodup_names|exact HR|exact HP].
Qed.
Lemma jwm_picked : forall h, picked jwm_names (jwm_entries h).
Proof.
  intros h. unfold jwm_entries. apply (picked_app _ ["typ"]); [apply picked_one|]. do 7 (match goal with |- picked ?l (sopt ?k _ _ ++ _) => apply (picked_app _ [k]) end; [apply picked_sopt|]).
  apply picked_sopt.
Qed.
Definition did_fixed : list string := ["id"; "thid"; "pthid"; "type"; "to"; "from"; "created_time"; "expires_time"; "from_prior"; "~thread"].
Lemma did_picked : forall d, picked (did_fixed ++ map fst (dh_other d)) (didcomm_entries d).
Proof.
  intros d. unfold didcomm_entries, did_fixed. apply (picked_app _ ["id"]); [apply picked_one|]. apply (picked_app _ ["thid"]); [apply picked_sopt|]. apply (picked_app _ ["pthid"]); [apply picked_sopt|].
  apply (picked_app _ ["type"]); [apply picked_one|]. apply (picked_app _ ["to"]); [apply picked_svec|]. apply (picked_app _ ["from"]); [apply picked_one|].
  do 4 (match goal with |- picked ?l (sopt ?k _ _ ++ _) => apply (picked_app _ [k]) end; [apply picked_sopt|]). apply picked_smap.
Qed.
Lemma message_unique : forall m, unique_keys (dh_other (m_did m)) -> avoids header_names (dh_other (m_did m)) -> unique_keys (message_entries m).
Proof.
  intros m HU HA. apply (picked_unique _ (jwm_names ++ (did_fixed ++ map fst (dh_other (m_did m))) ++ ["recipients"] ++ ["body"] ++ ["attachments"])%list).
  - unfold message_entries. apply picked_app; [apply jwm_picked|]. apply picked_app; [apply did_picked|]. apply picked_app; [apply picked_sopt|].
    apply (picked_app _ ["body"]); [apply picked_one|apply picked_svec].
  - apply (Permutation_NoDup (l := header_names ++ map fst (dh_other (m_did m)))).
    + change header_names with (["recipients"; "body"; "attachments"] ++ jwm_names ++ did_fixed)%list.
      rewrite <- !app_assoc. rewrite Permutation_app_comm. rewrite <- !app_assoc. apply Permutation_refl.
    + apply NoDup_two; [unfold header_names; nodup_names|exact HU|exact HA].
Qed.

(** ** Equal messages, equal documents *)

Definition lrel (es es' : list (string * json)) : Prop := exists es1, Permutation es es1 /\ Forall2 erel es1 es'.
Lemma erel_refl : forall a, erel a a.
Proof. intros a. split; [reflexivity|constructor]. Qed.
Lemma lrel_refl : forall es, lrel es es.
Proof. intros es. exists es. split; [apply Permutation_refl|]. induction es; constructor; [apply erel_refl|assumption]. Qed.
Lemma lrel_perm : forall es es', Permutation es es' -> lrel es es'.
Proof. intros es es' H. exists es'. split; [exact H|]. clear H. induction es'; constructor; [apply erel_refl|assumption]. Qed.
Lemma lrel_app : forall a a' b b', lrel a a' -> lrel b b' -> lrel (a ++ b) (a' ++ b').
Proof. intros a a' b b' [a1 [P1 F1]] [b1 [P2 F2]]. exists (a1 ++ b1)%list. split; [now apply Permutation_app|now apply Forall2_app]. Qed.
Lemma lrel_obj : forall es es', unique_keys es -> lrel es es' -> reordered (JObj es) (JObj es').
Proof. intros es es' HU [es1 [P F]]. eapply ro_obj; eauto. Qed.
Lemma lrel_sopt : forall A k (f : A -> json) o o', orel (fun a b => reordered (f a) (f b)) o o' -> lrel (sopt k f o) (sopt k f o').
Proof.
  intros A k f [a|] [b|] H; cbn in *; try contradiction; [|apply lrel_refl]. exists [(k, f a)]. split; [apply Permutation_refl|]. constructor; [now split|constructor].
Qed.
Lemma lrel_smap : forall m m', same_map m m' -> lrel (smap m) (smap m').
Proof. intros m m' H. apply lrel_perm. now apply Permutation_map. Qed.
Lemma lrel_cons : forall k x x' es es', reordered x x' -> lrel es es' -> lrel ((k, x) :: es) ((k, x') :: es').
Proof. intros k x x' es es' HX [es1 [P F]]. exists ((k, x) :: es1). split; [now constructor|]. constructor; [now split|exact F]. Qed.

Definition good_key (k : jwk) : Prop := rust_jwk k /\ jwk_plain k.
Lemma jwk_ro : forall k k', good_key k -> same_jwk k k' -> reordered (ser_jwk k) (ser_jwk k').
Proof.
  intros k k' [HR HP] [H1 [H2 [H3 [H4 [H5 [H6 [H7 H8]]]]]]]. change (reordered (JObj (jwk_list k)) (JObj (jwk_list k'))).
  apply lrel_obj; [now apply jwk_unique|]. unfold jwk_list. rewrite H1, H2, H3, H4, H5, H6, H7. repeat (apply lrel_app; [apply lrel_refl|]). now apply lrel_smap.
Qed.
Lemma jwk_opt_ro : forall o o', opt_all good_key o -> orel same_jwk o o' -> orel (fun a b => reordered (ser_jwk a) (ser_jwk b)) o o'.
Proof. intros [a|] [b|] HG H; cbn in *; try contradiction; [now apply jwk_ro|exact I]. Qed.
Lemma jwm_ro : forall h h', opt_all good_key (jh_jwk h) -> opt_all good_key (jh_epk h) -> same_header h h' -> lrel (jwm_entries h) (jwm_entries h').
Proof.
  intros h h' G1 G2 [H1 [H2 [H3 [H4 [H5 [H6 [H7 [H8 H9]]]]]]]]. unfold jwm_entries. rewrite H1, H2, H3, H4, H5, H6, H9.
  do 6 (apply lrel_app; [apply lrel_refl|]). apply lrel_app; [now apply lrel_sopt, jwk_opt_ro|]. apply lrel_app; [now apply lrel_sopt, jwk_opt_ro|]. apply lrel_refl.
Qed.
Lemma thread_ro : forall t t', opt_all (fun ro => unique_keys ro) (th_received_orders t) -> same_thread t t' -> reordered (ser_thread t) (ser_thread t').
Proof.
  intros t t' HU [H1 [H2 [H3 [H4 H5]]]]. unfold ser_thread. rewrite H1, H2, H3, H5. apply lrel_obj.
  - apply (picked_unique _ ["thid"; "pthid"; "sender_order"; "received_orders"; "goal_code"]); [|nodup_names].
    apply (picked_app _ ["thid"; "pthid"]); [repeat constructor|]. apply (picked_app _ ["sender_order"]); [apply picked_sopt|]. apply (picked_app _ ["received_orders"]); [apply picked_sopt|]. apply picked_sopt.
  - apply lrel_app; [apply lrel_refl|]. apply lrel_app; [apply lrel_refl|]. apply lrel_app; [|apply lrel_refl]. apply lrel_sopt.
    destruct (th_received_orders t) as [a|], (th_received_orders t') as [b|]; cbn in *; try contradiction; [|exact I]. apply lrel_obj.
    + unfold unique_keys in *. rewrite map_map. exact HU.
    + apply lrel_perm. now apply Permutation_map.
Qed.
Lemma recipient_ro : forall r r', good_key (rc_header r) -> same_recipient r r' -> reordered (ser_recipient r) (ser_recipient r').
Proof.
  intros r r' HG [H1 H2]. unfold ser_recipient, recipient_entries. rewrite H2. apply lrel_obj.
  - unfold unique_keys. cbn. nodup_names.
  - apply lrel_cons; [now apply jwk_ro|apply lrel_refl].
Qed.
Record tidy (m : message) : Prop := {
  td_other : unique_keys (dh_other (m_did m));
  td_names : avoids header_names (dh_other (m_did m));
  td_jwk : opt_all good_key (jh_jwk (m_jwm m));
  td_epk : opt_all good_key (jh_epk (m_jwm m));
  td_thread : opt_all (fun t => opt_all (fun ro => unique_keys ro) (th_received_orders t)) (dh_thread (m_did m));
  td_recipients : opt_all (Forall (fun r => good_key (rc_header r))) (m_recipients m);
}.
Lemma message_lrel : forall m m', tidy m -> same_message m m' -> lrel (message_entries m) (message_entries m').
Proof.
  intros m m' [T1 T2 T3 T4 T5 T6] [H1 [H2 [H3 [H4 H5]]]]. unfold message_entries. rewrite H4, H5. apply lrel_app; [now apply jwm_ro|]. apply lrel_app.
  - destruct H2 as [G1 [G2 [G3 [G4 [G5 [G6 [G7 [G8 [G9 [G10 G11]]]]]]]]]]. unfold didcomm_entries. rewrite G1, G2, G3, G4, G5, G6, G7, G8, G9.
    do 9 (apply lrel_app; [apply lrel_refl|]). apply lrel_app; [|now apply lrel_smap]. apply lrel_sopt.
    destruct (dh_thread (m_did m)) as [a|], (dh_thread (m_did m')) as [b|]; cbn in *; try contradiction; [now apply thread_ro|exact I].
  - apply lrel_app; [|apply lrel_refl]. apply lrel_sopt. destruct (m_recipients m) as [a|], (m_recipients m') as [b|]; cbn in *; try contradiction; [|exact I].
    constructor. clear - T6 H3. induction H3 as [|x y a b H F IH]; cbn; [constructor|]. inversion T6; subst. constructor; [now apply recipient_ro|auto].
Qed.
Lemma message_doc_ro : forall m m', tidy m -> same_message m m' -> reordered (JObj (message_entries m)) (JObj (message_entries m')).
Proof. intros m m' T H. apply lrel_obj; [apply message_unique; apply T|now apply message_lrel]. Qed.
Lemma body_member : forall m x, avoids header_names (dh_other (m_did m)) -> unique_keys (dh_other (m_did m)) -> In ("body", x) (message_entries m) -> x = m_body m.
Proof.
  intros m x HA HU H. pose proof (message_unique m HU HA) as HN. pose proof (proj1 (proj2 (proj2 (message_known_entries m)))) as HB.
  pose proof (member_unique _ _ _ HN H) as M1. pose proof (member_unique _ _ _ HN HB) as M2. congruence.
Qed.
Lemma message_bodies : forall m m', tidy m -> tidy m' -> same_message m m' -> bodies (JObj (message_entries m)) (JObj (message_entries m')).
Proof.
  assert (G : forall m m', tidy m -> tidy m' -> m_body m = m_body m' -> body_kept (JObj (message_entries m)) (JObj (message_entries m'))).
  { intros m m' T T' HB R es es' x x' v E E' Hx Hx' _ H. injection E as <-. injection E' as <-. apply body_member in Hx, Hx'; try (apply T); try (apply T'). congruence. }
  intros m m' T T' [_ [_ [_ [HB _]]]]. split; now apply G.
Qed.
Lemma decoded_tidy : forall m, decoded m -> tidy m.
Proof.
  assert (G : forall o, opt_all rust_jwk o -> opt_all jwk_plain o -> opt_all good_key o) by (intros [k|] A B; cbn in *; [now split|exact I]).
  intros m [[M1 M2 M3 M4 M5 M6 M7 M8 M9 M10] D2 [D3 D3'] D4 D5]. constructor; auto.
  - destruct (dh_thread (m_did m)) as [t|]; cbn in *; [|exact I]. destruct M7 as [_ M7]. destruct (th_received_orders t); cbn in *; [apply M7|exact I].
  - destruct (m_recipients m) as [l|]; cbn in *; [|exact I]. clear - M8 D4. induction l; [constructor|]. inversion M8; inversion D4; subst. constructor; [now split|auto].
Qed.
Lemma printed : forall m, decoded m -> parse (message_json m) = Some (JObj (message_entries m)) /\ utf8_valid (message_json m) = true.
Proof. intros m D. destruct (raw_json_text m (dc_rust _ D)) as [H1 [H2 _]]. split; [exact H1|exact H2]. Qed.

(** ** Other iteration orders *)

Lemma numbers_same : forall R R', fnorm R = fnorm R' -> forall t t', num_reads R t t' -> num_reads R' t t'.
Proof. intros R R' H t t' [G|? G1 G2]; [now constructor|]. apply nr_float; [assumption|]. now rewrite <- H. Qed.
Lemma buffered_ext : forall R R' own es, fnorm R = fnorm R' -> buffered R own es -> buffered R' own es.
Proof. intros R R' own es H HB k x Hx Hk. destruct (HB k x Hx Hk) as [G1 G2]. split; [exact G1|]. eapply readable_ext; [|exact G2]. now apply numbers_same. Qed.
Lemma jwe_text_ext : forall R R' j e, fnorm R = fnorm R' -> jwe_text R j e -> jwe_text R' j e.
Proof.
  intros R R' j e HF [es [-> [H1 [H2 [H3 [H4 [H5 [H6 [H7 H8]]]]]]]]]. exists es. split; [reflexivity|]. do 7 (split; [assumption|]). eapply buffered_ext; eauto.
Qed.
Lemma jws_text_ext : forall R R' j e, fnorm R = fnorm R' -> jws_text R j e -> jws_text R' j e.
Proof. intros R R' j e HF [es [-> [H1 [H2 [H3 H4]]]]]. exists es. split; [reflexivity|]. do 3 (split; [assumption|]). eapply buffered_ext; eauto. Qed.

Lemma message_order : forall R R' text m, drt_ok R -> drt_ok R' -> fnorm R = fnorm R' -> message_from_str R text = Some m ->
  (exists j, document text j /\ message_text R j m) /\ exists m', message_from_str R' text = Some m' /\ same_message m m'.
Proof.
  intros R R' text m HR HR' HF H. apply (text_reads _ _ _ same_message (fun j Hw => message_reads R j HR Hw)) in H. split; [exact H|]. destruct H as [j [HD HM]].
  apply (text_reads _ _ _ same_message (fun j Hw => message_reads R' j HR' Hw)). exists j. split; [exact HD|]. eapply message_text_ext; [|exact HM]. now apply numbers_same.
Qed.
Lemma jwe_order : forall R R' text e, drt_ok R -> drt_ok R' -> fnorm R = fnorm R' -> jwe_from_str R text = Some e ->
  (exists j, document text j /\ jwe_text R j e) /\ exists e', jwe_from_str R' text = Some e' /\ same_jwe e e'.
Proof.
  intros R R' text m HR HR' HF H. apply (text_reads _ _ _ same_jwe (fun j Hw => jwe_reads R j HR Hw)) in H. split; [exact H|]. destruct H as [j [HD HM]].
  apply (text_reads _ _ _ same_jwe (fun j Hw => jwe_reads R' j HR' Hw)). exists j. split; [exact HD|]. eapply jwe_text_ext; eauto.
Qed.
Lemma jws_order : forall R R' text e, drt_ok R -> drt_ok R' -> fnorm R = fnorm R' -> jws_from_str R text = Some e ->
  (exists j, document text j /\ jws_text R j e) /\ exists e', jws_from_str R' text = Some e' /\ same_jws e e'.
Proof.
  intros R R' text m HR HR' HF H. apply (text_reads _ _ _ same_jws (fun j Hw => jws_reads R j HR Hw)) in H. split; [exact H|]. destruct H as [j [HD HM]].
  apply (text_reads _ _ _ same_jws (fun j Hw => jws_reads R' j HR' Hw)). exists j. split; [exact HD|]. eapply jws_text_ext; eauto.
Qed.
Lemma message_none_order : forall R R' text, drt_ok R -> drt_ok R' -> fnorm R = fnorm R' -> message_from_str R text = None -> message_from_str R' text = None.
Proof. intros R R' text HR HR' HF H. destruct (message_from_str R' text) as [m|] eqn:E; [|reflexivity]. destruct (message_order R' R text m HR' HR (eq_sym HF) E) as [_ [? [? _]]]. congruence. Qed.
Lemma jwe_none_order : forall R R' text, drt_ok R -> drt_ok R' -> fnorm R = fnorm R' -> jwe_from_str R text = None -> jwe_from_str R' text = None.
Proof. intros R R' text HR HR' HF H. destruct (jwe_from_str R' text) as [m|] eqn:E; [|reflexivity]. destruct (jwe_order R' R text m HR' HR (eq_sym HF) E) as [_ [? [? _]]]. congruence. Qed.
Lemma jws_none_order : forall R R' text, drt_ok R -> drt_ok R' -> fnorm R = fnorm R' -> jws_from_str R text = None -> jws_from_str R' text = None.
Proof. intros R R' text HR HR' HF H. destruct (jws_from_str R' text) as [m|] eqn:E; [|reflexivity]. destruct (jws_order R' R text m HR' HR (eq_sym HF) E) as [_ [? [? _]]]. congruence. Qed.
Lemma classify_order : forall R R' text, drt_ok R -> drt_ok R' -> fnorm R = fnorm R' -> get_message_type R text = get_message_type R' text.
Proof.
  intros R R' text HR HR' HF. unfold get_message_type. destruct (parse text) as [j|]; [|reflexivity]. cbn [oerr rbind]. destruct (de_unknown j) as [u|]; [|reflexivity]. cbn [oerr rbind].
  destruct (un_iv u); [reflexivity|]. destruct (un_signatures u || un_signature u)%bool; [reflexivity|]. destruct (message_from_str R text) as [m|] eqn:EM.
  - destruct (message_order R R' text m HR HR' HF EM) as [_ [m' [-> [S1 _]]]]. cbn. f_equal. apply S1.
  - now rewrite (message_none_order R R' text HR HR' HF EM).
Qed.

(** With at most one custom member per key, equal headers are the same. *)
Lemma perm_few : forall A (a b : list A), Permutation a b -> List.length a <= 1 -> a = b.
Proof.
  intros A [|x [|y a]] b H L; cbn in L; try lia; [now apply Permutation_nil in H|]. apply Permutation_length_1_inv in H. now subst.
Qed.
Lemma few_jwk : forall a b, same_jwk a b -> List.length (jk_other a) <= 1 -> a = b.
Proof.
  intros [a1 a2 a3 a4 a5 a6 a7 a8] [b1 b2 b3 b4 b5 b6 b7 b8] [H1 [H2 [H3 [H4 [H5 [H6 [H7 H8]]]]]]] L. cbn in *. apply perm_few in H8; [|exact L]. now subst.
Qed.
Lemma few_header : forall a b, same_header a b -> few_custom a -> a = b.
Proof.
  intros [a1 a2 a3 a4 a5 a6 a7 a8 a9] [b1 b2 b3 b4 b5 b6 b7 b8 b9] [H1 [H2 [H3 [H4 [H5 [H6 [H7 [H8 H9]]]]]]]] [F1 F2]. cbn in *.
  assert (G : forall o o', orel same_jwk o o' -> opt_all (fun k => List.length (jk_other k) <= 1) o -> o = o').
  { intros [x|] [y|] A B; cbn in *; try contradiction; [|reflexivity]. f_equal. now apply few_jwk. }
  apply G in H7; [|exact F1]. apply G in H8; [|exact F2]. now subst.
Qed.
Lemma few_header_opt : forall a b, orel same_header a b -> opt_all few_custom a -> a = b.
Proof. intros [a|] [b|] H F; cbn in *; try contradiction; [|reflexivity]. f_equal. now apply few_header. Qed.
