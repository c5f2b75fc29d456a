(** The order of members does not matter for what is read. *)

From Coq Require Import Ascii String Arith NArith List Bool Permutation Sorted Lia.
From Verif Require Import Bytes BytesFacts Base64 Utf8 Json JsonFacts Value ValueFacts Types Serde SerdeFacts Spec SpecFacts SpecText SpecJson
  SpecDecode GrammarFacts BodyFacts DecodeFacts CodecFacts ReadFacts.
Import ListNotations.
Local Open Scope string_scope.

Definition erel (a b : string * json) : Prop := fst a = fst b /\ reordered (snd a) (snd b).

Lemma erel_keys : forall es es', Forall2 erel es es' -> map fst es = map fst es'.
Proof. intros es es' H. induction H as [|a b l r [E _] H IH]; [reflexivity|]. cbn. now rewrite E, IH. Qed.

Lemma Forall2_turn : forall A B (P : A -> B -> Prop) l r, Forall2 P l r -> Forall2 (fun b a => P a b) r l.
Proof. intros A B P l r H. induction H; constructor; auto. Qed.

Lemma reordered_sym : forall j j', reordered j j' -> reordered j' j.
Proof.
  apply (json_rect2 (fun j => forall j', reordered j j' -> reordered j' j)).
  - intros j' H. inversion H; subst. constructor.
  - intros b j' H. inversion H; subst. constructor.
  - intros t j' H. inversion H; subst. constructor.
  - intros e s j' H. inversion H; subst. constructor.
  - intros l IH j' H. inversion H as [|? l' F|]; subst; [constructor|]. constructor. clear H. induction F as [|a b xs ys H1 F IHF]; constructor.
    + inversion IH; subst. auto.
    + apply IHF. now inversion IH.
  - intros es IH j' H. inversion H as [| |? es1 es' HU HP F]; subst; [constructor|].
    assert (F' : Forall2 (fun a b => fst a = fst b /\ reordered (snd a) (snd b)) es' es1).
    { assert (IH1 : Forall (fun e => forall j', reordered (snd e) j' -> reordered j' (snd e)) es1) by (eapply Permutation_Forall; [exact HP|exact IH]).
      clear - IH1 F. induction F as [|a b xs ys [E1 H1] F IHF]; constructor.
      - inversion IH1; subst. split; auto.
      - apply IHF. now inversion IH1. }
    apply Permutation_sym in HP. destruct (Permutation_Forall2 HP (Forall2_turn _ _ _ _ _ F')) as [es2 [HP2 F2]].
    apply ro_obj with (es1 := es2).
    + unfold unique_keys in *. rewrite <- (erel_keys _ _ F). eapply Permutation_NoDup; [|exact HU]. apply Permutation_map. now apply Permutation_sym.
    + exact HP2.
    + now apply Forall2_turn in F2.
Qed.

(** ** Members *)

Lemma unique_only : forall es k x, unique_keys es -> (only es k x <-> In (k, x) es).
Proof.
  intros es k x HU. split.
  - intros [b [a [-> _]]]. apply in_or_app. right. now left.
  - intros H. apply in_split in H. destruct H as [b [a ->]]. exists b, a. split; [reflexivity|]. unfold unique_keys in HU. rewrite map_app in HU. cbn [map fst] in HU.
    apply NoDup_remove_2 in HU. rewrite in_app_iff in HU. unfold missing. tauto.
Qed.
Lemma unique_last : forall (es : list (string * json)) k x, unique_keys es -> (last_binding es k x <-> In (k, x) es).
Proof.
  intros es k x HU. split; [apply last_binding_In|]. intros H. apply unique_only in H; [|exact HU]. destruct H as [b [a [-> [_ H]]]]. now exists b, a.
Qed.

Lemma obj_reordered : forall es j', reordered (JObj es) j' -> exists es', j' = JObj es' /\
  (es' = es \/ (unique_keys es /\ unique_keys es' /\
    (forall k x, In (k, x) es -> exists x', In (k, x') es' /\ reordered x x') /\
    (forall k x', In (k, x') es' -> exists x, In (k, x) es /\ reordered x x'))).
Proof.
  intros es j' H. inversion H as [| |? es1 es' HU HP F]; subst; [exists es; auto|]. exists es'. split; [reflexivity|]. right. split; [exact HU|].
  split. { unfold unique_keys in *. rewrite <- (erel_keys _ _ F). eapply Permutation_NoDup; [|exact HU]. now apply Permutation_map. }
  split.
  - intros k x Hx. apply (Permutation_in _ HP) in Hx. destruct (Forall2_In_l _ _ _ _ _ _ F Hx) as [[k' x'] [Hy [E R]]]. cbn in E, R. subst k'. now exists x'.
  - intros k x Hx. destruct (Forall2_In_r _ _ _ _ _ _ F Hx) as [[k' x'] [Hy [E R]]]. cbn in E, R. subst k'. exists x'. split; [|exact R].
    eapply Permutation_in; [apply Permutation_sym; exact HP|exact Hy].
Qed.
Lemma arr_reordered : forall l j', reordered (JArr l) j' -> exists l', j' = JArr l' /\ Forall2 reordered l l'.
Proof.
  intros l j' H. inversion H as [|? l' F|]; subst; [|now exists l']. exists l. split; [reflexivity|]. clear H. induction l; constructor; [constructor|assumption].
Qed.
Lemma Forall2_nth : forall A B (P : A -> B -> Prop) l r n x, Forall2 P l r -> nth_error l n = Some x -> exists y, nth_error r n = Some y /\ P x y.
Proof.
  intros A B P l r n x H. revert n. induction H as [|a b l r H1 H2 IH]; intros n E; [destruct n; discriminate|]. destruct n as [|n]; cbn in *; [|auto].
  exists b. split; [reflexivity|congruence].
Qed.

Lemma given_ro : forall fs j j' k x, reordered j j' -> given fs j k x -> exists x', given fs j' k x' /\ reordered x x'.
Proof.
  intros fs j j' k x HR H. inversion H as [es k0 x0 H1|l n k0 x0 H1 H2]; subst.
  - apply obj_reordered in HR. destruct HR as [es' [-> [->|[HU [HU' [HI _]]]]]]; [exists x; split; [exact H|constructor]|].
    apply unique_only in H1; [|exact HU]. destruct (HI _ _ H1) as [x' [Hx' HR]]. exists x'. split; [|exact HR]. constructor. now apply unique_only.
  - apply arr_reordered in HR. destruct HR as [l' [-> F]]. destruct (Forall2_nth _ _ _ _ _ _ _ F H2) as [x' [H3 HR]]. exists x'. split; [|exact HR]. econstructor; eauto.
Qed.
Lemma omitted_ro : forall j j' k, reordered j j' -> omitted j k -> omitted j' k.
Proof.
  intros j j' k HR H. inversion H as [es k0 H1]; subst. apply obj_reordered in HR. destruct HR as [es' [-> [->|[_ [_ [_ HI]]]]]]; [exact H|].
  constructor. intros G. apply H1. apply in_map_iff in G. destruct G as [[k' x'] [E G]]. cbn in E. subst k'. destruct (HI _ _ G) as [x [Hx _]].
  apply in_map_iff. now exists (k, x).
Qed.
Lemma Forall2_length' : forall A B (P : A -> B -> Prop) l r, Forall2 P l r -> List.length l = List.length r.
Proof. intros A B P l r H. induction H; cbn; congruence. Qed.
Lemma cut_off_ro : forall fs j j' k, reordered j j' -> cut_off fs j k -> cut_off fs j' k.
Proof.
  intros fs j j' k HR H. inversion H as [l n k0 H1 H2]; subst. apply arr_reordered in HR. destruct HR as [l' [-> F]]. econstructor; [exact H1|].
  apply Forall2_length' in F. lia.
Qed.
Lemma struct_like_ro : forall fs j j', reordered j j' -> struct_like fs j -> struct_like fs j'.
Proof.
  intros fs j j' HR H. inversion H as [es|l HL]; subst.
  - apply obj_reordered in HR. destruct HR as [es' [-> _]]. constructor.
  - apply arr_reordered in HR. destruct HR as [l' [-> F]]. constructor. apply Forall2_length' in F. lia.
Qed.

(** ** Fields *)

(** [P] does not look at the order of members. *)
Definition steady {A} (P : json -> A -> Prop) : Prop := forall j j' v, reordered j j' -> P j v -> P j' v.

Lemma required_ro : forall A fs j j' k (P : json -> A -> Prop) v, steady P -> reordered j j' -> required fs j k P v -> required fs j' k P v.
Proof. intros A fs j j' k P v HP HR [x [Hx H]]. destruct (given_ro _ _ _ _ _ HR Hx) as [x' [Hx' R]]. exists x'. split; [exact Hx'|]. eapply HP; eauto. Qed.
Lemma null_ro : forall x, reordered JNull x -> x = JNull.
Proof. intros x H. now inversion H. Qed.
Lemma optional_ro : forall A fs j j' k (P : json -> A -> Prop) v, steady P -> reordered j j' -> optional fs j k P v -> optional fs j' k P v.
Proof.
  intros A fs j j' k P [v|] HP HR; cbn.
  - intros [x [Hx [HN H]]]. destruct (given_ro _ _ _ _ _ HR Hx) as [x' [Hx' R]]. exists x'. split; [exact Hx'|]. split; [|eapply HP; eauto].
    intros ->. apply HN. apply null_ro. now apply reordered_sym.
  - intros [H|H]; [left; eapply omitted_ro; eauto|right]. destruct (given_ro _ _ _ _ _ HR H) as [x' [Hx' R]]. apply null_ro in R. now subst x'.
Qed.
Lemma defaulted_ro : forall A fs j j' k (P : json -> A -> Prop) d v, steady P -> reordered j j' -> defaulted fs j k P d v -> defaulted fs j' k P d v.
Proof.
  intros A fs j j' k P d v HP HR [H|[[H|H] ->]]; [left; eapply required_ro; eauto|right; split; [left; eapply omitted_ro; eauto|reflexivity]|
    right; split; [right; eapply cut_off_ro; eauto|reflexivity]].
Qed.

Lemma text_steady : steady text_of.
Proof. intros j j' v HR [e ->]. inversion HR; subst. now exists e. Qed.
Lemma natural_steady : forall b, steady (natural b).
Proof. intros b j j' v HR [t [-> H]]. inversion HR; subst. now exists t. Qed.
Lemma list_steady : forall A (P : json -> A -> Prop), steady P -> steady (list_of P).
Proof.
  intros A P HP j j' v HR [xs [-> F]]. apply arr_reordered in HR. destruct HR as [l' [-> G]]. exists l'. split; [reflexivity|].
  revert l' G. induction F as [|a b l r H1 H2 IH]; intros l' G; inversion G; subst; constructor; [eapply HP; eauto|auto].
Qed.
Lemma variant_steady : forall {bf} A (t : list (string * A)), steady (variant bf t).
Proof.
  intros bf A t j j' v HR [s [HI [H|[H|[HB H]]]]]; exists s; (split; [exact HI|]); [left; eapply text_steady; eauto|right; left|right; right; split; [exact HB|]]; subst j;
    (inversion HR as [| |? es1 es' HU HP F]; subst; [reflexivity|]); apply Permutation_length_1_inv in HP; subst es1;
    inversion F as [|? [k x] ? r [E R] F']; subst; inversion F'; subst; cbn in E, R; [apply null_ro in R; now subst|].
  inversion R as [| |? es2 es'' HU2 HP2 F2]; subst; [reflexivity|]. apply Permutation_nil in HP2. subst es2. now inversion F2.
Qed.
Lemma collected_ro : forall V ns (P : json -> V -> Prop) es es' m, steady P -> reordered (JObj es) (JObj es') -> collected ns P es m -> collected ns P es' m.
Proof.
  intros V ns P es es' m HP HR [H1 [H2 H3]]. pose proof (reordered_sym _ _ HR) as HR'. apply obj_reordered in HR. destruct HR as [e2 [E HE]]. injection E as <-.
  destruct HE as [->|[HU [HU' [HA HB]]]]; [now split|]. split; [exact H1|]. split.
  - intros k v. rewrite H2. split; intros [G1 [x [Hx Hv]]]; (split; [exact G1|]).
    + apply unique_last in Hx; [|exact HU]. destruct (HA _ _ Hx) as [x' [Hx' R]]. exists x'. split; [now apply unique_last|eapply HP; eauto].
    + apply unique_last in Hx; [|exact HU']. destruct (HB _ _ Hx) as [x' [Hx' R]]. exists x'. split; [now apply unique_last|]. eapply HP; [|exact Hv]. now apply reordered_sym.
  - intros k x Hx Hk. destruct (HB _ _ Hx) as [x0 [Hx0 R]]. destruct (H3 _ _ Hx0 Hk) as [v Hv]. exists v. eapply HP; eauto.
Qed.
Lemma map_steady : forall V (P : json -> V -> Prop), steady P -> steady (map_of P).
Proof.
  intros V P HP j j' m HR [es [-> H]]. destruct (obj_reordered _ _ HR) as [es' [-> _]]. exists es'. split; [reflexivity|]. eapply collected_ro; eauto.
Qed.

Create HintDb ro.
#[export] Hint Resolve text_steady natural_steady list_steady variant_steady map_steady : ro.
#[export] Hint Unfold u64 : ro.
Ltac field_ro := first [eapply required_ro | eapply optional_ro | eapply defaulted_ro]; [solve [eauto with ro]|eassumption|assumption].

Lemma claims_steady : steady claims_text.
Proof. intros j j' v HR [H1 [H2 H3]]. split; [eapply struct_like_ro; eauto|]. split; field_ro. Qed.
Lemma epk_steady : steady epk_text.
Proof. intros j j' v HR [H1 [H2 [H3 [H4 H5]]]]. split; [eapply struct_like_ro; eauto|]. repeat match goal with |- _ /\ _ => split end; field_ro. Qed.
#[export] Hint Resolve claims_steady epk_steady : ro.
Lemma jwk_steady : forall {bf}, steady (jwk_text bf).
Proof.
  intros bf j j' v HR [es [-> [H1 [H2 [H3 [H4 [H5 [H6 [H7 H8]]]]]]]]]. destruct (obj_reordered _ _ HR) as [es' [-> _]]. exists es'. split; [reflexivity|].
  repeat match goal with |- _ /\ _ => split end; try field_ro. eapply collected_ro; eauto with ro.
Qed.
#[export] Hint Resolve jwk_steady : ro.
Lemma jwm_members_ro : forall {bf} fs j j' h, reordered j j' -> jwm_members bf fs j h -> jwm_members bf fs j' h.
Proof.
  intros bf fs j j' h HR [H1 [H2 [H3 [H4 [H5 [H6 [H7 [H8 H9]]]]]]]]. unfold jwm_members. repeat match goal with |- _ /\ _ => split end; field_ro.
Qed.
Lemma jwm_steady : forall {bf}, steady (jwm_text bf).
Proof. intros bf j j' v HR [H1 H2]. split; [eapply struct_like_ro; eauto|eapply jwm_members_ro; eauto]. Qed.
Lemma u64_steady : steady u64.
Proof. apply natural_steady. Qed.
#[export] Hint Resolve jwm_steady u64_steady : ro.
Lemma thread_steady : steady thread_text.
Proof. intros j j' v HR [H1 [H2 [H3 [H4 [H5 H6]]]]]. split; [eapply struct_like_ro; eauto|]. repeat match goal with |- _ /\ _ => split end; field_ro. Qed.
#[export] Hint Resolve thread_steady : ro.
Lemma didcomm_members_ro : forall j j' d, reordered j j' -> didcomm_members j d -> didcomm_members j' d.
Proof.
  intros j j' v HR [es [-> [H1 [H2 [H3 [H4 [H5 [H6 [H7 [H8 [H9 [H10 H11]]]]]]]]]]]]. destruct (obj_reordered _ _ HR) as [es' [-> _]]. exists es'. split; [reflexivity|].
  repeat match goal with |- _ /\ _ => split end; try field_ro. eapply collected_ro; eauto with ro.
Qed.
Lemma recipient_members_ro : forall {bf} fs j j' h, reordered j j' -> recipient_members bf fs j h -> recipient_members bf fs j' h.
Proof. intros bf fs j j' h HR [H1 H2]. split; field_ro. Qed.
Lemma recipient_steady : steady recipient_text.
Proof. intros j j' v HR [H1 H2]. split; [eapply struct_like_ro; eauto|eapply recipient_members_ro; eauto]. Qed.
Lemma attachment_data_steady : steady attachment_data_text.
Proof. intros j j' v HR [H1 [H2 [H3 [H4 [H5 H6]]]]]. split; [eapply struct_like_ro; eauto|]. repeat match goal with |- _ /\ _ => split end; field_ro. Qed.
#[export] Hint Resolve recipient_steady attachment_data_steady : ro.
Lemma attachment_steady : steady attachment_text.
Proof.
  intros j j' v HR [H1 [H2 [H3 [H4 [H5 [H6 [H7 [H8 H9]]]]]]]]. split; [eapply struct_like_ro; eauto|]. repeat match goal with |- _ /\ _ => split end; field_ro.
Qed.
#[export] Hint Resolve attachment_steady : ro.

(** ** Bodies and buffers *)

Lemma nested_ro : forall j n j', reordered j j' -> nested n j -> nested n j'.
Proof.
  apply (json_rect2 (fun j => forall n j', reordered j j' -> nested n j -> nested n j')).
  - intros n j' HR H. inversion HR; subst. exact H.
  - intros b n j' HR H. inversion HR; subst. exact H.
  - intros t n j' HR H. inversion HR; subst. exact H.
  - intros e s n j' HR H. inversion HR; subst. exact H.
  - intros l IH n j' HR H. apply arr_reordered in HR. destruct HR as [l' [-> F]]. inversion H as [| | | |n' ? HI|]; subst. constructor.
    rewrite Forall_forall in IH. intros x Hx. destruct (Forall2_In_r _ _ _ _ _ _ F Hx) as [y [Hy R]]. eapply (IH y); eauto.
  - intros es IH n j' HR H. apply obj_reordered in HR. destruct HR as [es' [-> [->|[_ [_ [_ HB]]]]]]; [exact H|]. inversion H as [| | | | |n' ? HI]; subst. constructor.
    rewrite Forall_forall in IH. intros [k x] Hx. destruct (HB _ _ Hx) as [y [Hy R]]. apply (IH (k, y) Hy n' x R). apply (HI _ Hy).
Qed.
Lemma readable_ro : forall R j j', reordered j j' -> readable R j -> readable R j'.
Proof.
  intros R. apply (json_rect2 (fun j => forall j', reordered j j' -> readable R j -> readable R j')).
  - intros j' HR H. inversion HR; subst. exact H.
  - intros b j' HR H. inversion HR; subst. exact H.
  - intros t j' HR H. inversion HR; subst. exact H.
  - intros e s j' HR H. inversion HR; subst. exact H.
  - intros l IH j' HR H. apply arr_reordered in HR. destruct HR as [l' [-> F]]. inversion H as [| | | |? HI|]; subst. constructor.
    rewrite Forall_forall in IH. intros x Hx. destruct (Forall2_In_r _ _ _ _ _ _ F Hx) as [y [Hy S]]. eapply (IH y); eauto.
  - intros es IH j' HR H. apply obj_reordered in HR. destruct HR as [es' [-> [->|[_ [_ [_ HB]]]]]]; [exact H|]. inversion H as [| | | | |? HI]; subst. constructor.
    rewrite Forall_forall in IH. intros [k x] Hx. destruct (HB _ _ Hx) as [y [Hy S]]. apply (IH (k, y) Hy x S). apply (HI _ Hy).
Qed.
Lemma ordinary_ro : forall j j', reordered j j' -> ordinary j -> ordinary j'.
Proof.
  apply (json_rect2 (fun j => forall j', reordered j j' -> ordinary j -> ordinary j')).
  - intros j' HR H. inversion HR; subst. exact H.
  - intros b j' HR H. inversion HR; subst. exact H.
  - intros t j' HR H. inversion HR; subst. exact H.
  - intros e s j' HR H. inversion HR; subst. exact H.
  - intros l IH j' HR H. apply arr_reordered in HR. destruct HR as [l' [-> F]]. inversion H as [| | | |? HI|]; subst. constructor.
    rewrite Forall_forall in IH. intros x Hx. destruct (Forall2_In_r _ _ _ _ _ _ F Hx) as [y [Hy S]]. eapply (IH y); eauto.
  - intros es IH j' HR H. apply obj_reordered in HR. destruct HR as [es' [-> [->|[_ [_ [_ HB]]]]]]; [exact H|]. inversion H as [| | | | |? HI]; subst. constructor.
    rewrite Forall_forall in IH. intros [k x] Hx. destruct (HB _ _ Hx) as [y [Hy S]]. destruct (HI _ Hy) as [G1 G2]. split; [exact G1|]. exact (IH (k, y) Hy x S G2).
Qed.
Lemma ordinary_body_ro : forall j j', reordered j j' -> ordinary_body j -> ordinary_body j'.
Proof.
  intros j j' HR H es' x -> Hx. apply reordered_sym in HR. apply obj_reordered in HR. destruct HR as [es [-> [->|[_ [_ [HA _]]]]]]; [eapply H; eauto|].
  destruct (HA _ _ Hx) as [y [Hy S]]. apply (ordinary_ro y); [now apply reordered_sym|]. eapply H; eauto.
Qed.
Lemma reads_ro : forall R j j' v, ordinary j -> reordered j j' -> reads R j v -> reads R j' v.
Proof.
  intros R. apply (json_rect2 (fun j => forall j' v, ordinary j -> reordered j j' -> reads R j v -> reads R j' v)).
  - intros j' v HO HR H. inversion HR; subst. exact H.
  - intros b j' v HO HR H. inversion HR; subst. exact H.
  - intros t j' v HO HR H. inversion HR; subst. exact H.
  - intros e s j' v HO HR H. inversion HR; subst. exact H.
  - intros l IH j' v HO HR H. apply arr_reordered in HR. destruct HR as [l' [-> F]]. inversion H as [| | | |? l1 G| |]; subst. constructor. clear H. inversion HO as [| | | |? HX|]; subst. clear HO.
    revert l' F IH HX. induction G as [|a b xs ys H1 G IHG]; intros l' F IH HX; inversion F; subst; constructor; inversion IH; subst.
    + cbn in HX. eauto.
    + apply IHG; auto. intros x Hx. apply HX. now right.
  - intros es IH j' v HO HR H. apply obj_reordered in HR. destruct HR as [es' [-> [->|[HU [HU' [HA HB]]]]]]; [exact H|].
    inversion HO as [| | | | |? HX]; subst. inversion H as [| | | | |? e1 P1 S1 B1 C1 D1|]; subst.
    2: { exfalso. apply (HX (reserved_name, JStr e s)); [now left|reflexivity]. }
    rewrite Forall_forall in IH. constructor.
    + intros k x r ->. destruct (HB k x (or_introl eq_refl)) as [y [Hy _]]. apply (HX _ Hy).
    + exact S1.
    + intros k v Hv. destruct (B1 k v Hv) as [j [Hj Hr]]. apply unique_last in Hj; [|exact HU]. destruct (HA _ _ Hj) as [x' [Hx' S]]. exists x'.
      split; [now apply unique_last|]. exact (IH (k, j) Hj x' v (proj2 (HX _ Hj)) S Hr).
    + intros k Hk. apply C1. apply in_map_iff in Hk. destruct Hk as [[k' x'] [E Hk]]. cbn in E. subst k'. destruct (HB _ _ Hk) as [x [Hx _]]. apply in_map_iff. now exists (k, x).
    + intros [k x'] Hx'. destruct (HB _ _ Hx') as [x [Hx S]]. destruct (D1 _ Hx) as [v Hv]. exists v. exact (IH (k, x) Hx x' v (proj2 (HX _ Hx)) S Hv).
Qed.
Lemma buffered_ro : forall R own es es', reordered (JObj es) (JObj es') -> buffered R own es -> buffered R own es'.
Proof.
  intros R own es es' HR H. apply obj_reordered in HR. destruct HR as [e2 [E [->|[_ [_ [_ HB]]]]]]; injection E as <-; [exact H|].
  intros k x Hx Hk. destruct (HB _ _ Hx) as [y [Hy S]]. destruct (H k y Hy Hk) as [G1 G2]. split; [eapply nested_ro; eauto|eapply readable_ro; eauto].
Qed.

(** ** Messages and envelopes *)

Lemma given_body : forall es k x, given [] (JObj es) k x -> In (k, x) es.
Proof. intros es k x H. inversion H as [? ? ? [b [a [-> _]]]|]; subst. apply in_or_app. right. now left. Qed.

(** The bodies of two documents are read as the same value. *)
Definition body_kept (j j' : json) : Prop := forall R es es' x x' v, j = JObj es -> j' = JObj es' -> In ("body", x) es -> In ("body", x') es' ->
  reordered x x' -> reads R x v -> reads R x' v.
Definition bodies (j j' : json) : Prop := body_kept j j' /\ body_kept j' j.
Lemma bodies_sym : forall j j', bodies j j' -> bodies j' j.
Proof. intros j j' [H1 H2]. now split. Qed.
Lemma ordinary_bodies : forall j j', ordinary_body j -> reordered j j' -> bodies j j'.
Proof.
  assert (G : forall j j', ordinary_body j -> body_kept j j').
  { intros j j' HO R es es' x x' v -> _ Hx _ S H. eapply reads_ro; [|exact S|exact H]. now apply (HO es x eq_refl). }
  intros j j' HO HR. split; apply G; [exact HO|]. eapply ordinary_body_ro; eauto.
Qed.
Lemma message_steady : forall R j j' m, bodies j j' -> reordered j j' -> message_text R j m -> message_text R j' m.
Proof.
  intros R j j' m [HO _] HR [es [-> [H1 [H2 [H3 [H4 [H5 [H6 H7]]]]]]]]. destruct (obj_reordered _ _ HR) as [es' [-> _]]. exists es'. split; [reflexivity|].
  split; [field_ro|]. split.
  { destruct H2 as [x [Hx [G1 G2]]]. destruct (given_ro _ _ _ _ _ HR Hx) as [x' [Hx' S]]. exists x'. split; [exact Hx'|].
    split; [eapply nested_ro; eauto|]. eapply (HO R es es' x x'); try reflexivity; [now apply given_body|now apply given_body|exact S|exact G2]. }
  split; [field_ro|]. split; [eapply jwm_members_ro; eauto|]. split; [eapply didcomm_members_ro; eauto|]. split; [eapply buffered_ro; eauto|exact H7].
Qed.
Lemma protected_ro : forall fs j j' o, reordered j j' -> protected_field fs j o -> protected_field fs j' o.
Proof.
  intros fs j j' o HR [[-> H]|[x [s [b [i [Hx [Ht H]]]]]]].
  - left. split; [reflexivity|]. destruct H as [H|[H|H]]; [left; eapply omitted_ro; eauto|right; left; eapply cut_off_ro; eauto|right; right].
    destruct (given_ro _ _ _ _ _ HR H) as [y [Hy S]]. apply null_ro in S. now subst y.
  - right. destruct (given_ro _ _ _ _ _ HR Hx) as [y [Hy S]]. exists y, s, b, i. split; [exact Hy|]. split; [eapply text_steady; eauto|exact H].
Qed.
Lemma bytes_steady : steady bytes_of.
Proof. intros j j' v HR [s [-> H]]. inversion HR; subst. now exists s. Qed.
#[export] Hint Resolve bytes_steady : ro.
Lemma signature_members_ro : forall {bf} fs j j' h, reordered j j' -> signature_members bf fs j h -> signature_members bf fs j' h.
Proof. intros bf fs j j' h HR [H1 [H2 H3]]. split; [eapply protected_ro; eauto|]. split; field_ro. Qed.
Lemma signature_steady : steady signature_text.
Proof. intros j j' v HR [H1 H2]. split; [eapply struct_like_ro; eauto|eapply signature_members_ro; eauto]. Qed.
#[export] Hint Resolve signature_steady : ro.
Lemma flattened_ro : forall A (P P' : A -> Prop) o, (forall v, P v <-> P' v) -> flattened P o -> flattened P' o.
Proof. intros A P P' [v|] HP H; cbn in *; [now apply HP|]. intros v Hv. apply (H v). now apply HP. Qed.
Lemma jws_steady : forall R, steady (jws_text R).
Proof.
  intros R j j' m HR [es [-> [H1 [H2 [H3 H4]]]]]. destruct (obj_reordered _ _ HR) as [es' [-> _]]. exists es'. split; [reflexivity|].
  split; [field_ro|]. split; [field_ro|]. split; [|eapply buffered_ro; eauto]. eapply flattened_ro; [|exact H3].
  intros v. split; apply signature_members_ro; [exact HR|now apply reordered_sym].
Qed.
Lemma jwe_steady : forall R, steady (jwe_text R).
Proof.
  intros R j j' m HR [es [-> [H1 [H2 [H3 [H4 [H5 [H6 [H7 H8]]]]]]]]]. destruct (obj_reordered _ _ HR) as [es' [-> _]]. exists es'. split; [reflexivity|].
  split; [eapply protected_ro; eauto|]. split; [field_ro|]. split. { eapply flattened_ro; [|exact H3]. intros v. split; apply recipient_members_ro; [exact HR|now apply reordered_sym]. }
  split; [field_ro|]. split; [field_ro|]. split; [field_ro|]. split; [field_ro|eapply buffered_ro; eauto].
Qed.

Lemma reordered_trans : forall a b c, reordered a b -> reordered b c -> reordered a c.
Proof.
  apply (json_rect2 (fun a => forall b c, reordered a b -> reordered b c -> reordered a c)).
  - intros b c H H'. inversion H; subst. exact H'.
  - intros x b c H H'. inversion H; subst. exact H'.
  - intros x b c H H'. inversion H; subst. exact H'.
  - intros x y b c H H'. inversion H; subst. exact H'.
  - intros l IH b c H H'. apply arr_reordered in H. destruct H as [l' [-> F]]. apply arr_reordered in H'. destruct H' as [l2 [-> G]]. apply ro_arr.
    revert l2 G IH. induction F as [|x y l l' H F IHF]; intros l2 G IH; inversion G; subst; constructor; inversion IH; subst; eauto.
  - intros es IH b c H H'. inversion H as [| |? e1 es' HU HP F]; subst; [exact H'|]. inversion H' as [| |? e2 es2 HU' HP' F']; subst; [exact H|].
    destruct (Permutation_Forall2 HP' (Forall2_turn _ _ _ _ _ F)) as [e3 [HP3 F3]]. apply Forall2_turn in F3.
    apply (ro_obj es e3 es2); [exact HU|eapply perm_trans; eauto|].
    assert (IH3 : Forall (fun x => forall b c, reordered (snd x) b -> reordered b c -> reordered (snd x) c) e3).
    { rewrite Forall_forall in *. intros x Hx. apply IH. eapply Permutation_in; [|exact Hx]. apply Permutation_sym. eapply perm_trans; eauto. }
    clear - F3 F' IH3. revert es2 F'. induction F3 as [|x y l l' [H1 H2] F3 IHF]; intros es2 F'; inversion F' as [|? z ? ? [H3 H4] G]; subst; constructor; inversion IH3; subst; eauto.
    split; [congruence|eauto].
Qed.
