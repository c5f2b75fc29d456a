(** The decoders read exactly what SpecDecode describes. *)

From Coq Require Import Ascii String Arith NArith List Bool Permutation Lia.
From Verif Require Import Bytes BytesFacts Base64 Utf8 Json JsonFacts Value ValueFacts Types Serde SerdeFacts Spec SpecFacts SpecText SpecJson
  SpecDecode GrammarFacts BodyFacts DecodeFacts CodecFacts.
Import ListNotations.
Local Open Scope string_scope.

(** ** Readers *)

Definition freads {A} (y : option A) (Q : A -> Prop) (S : A -> A -> Prop) : Prop :=
  (forall v, y = Some v -> Q v) /\ (forall v, Q v -> exists v', y = Some v' /\ S v v').
Definition reader {A} (f : json -> option A) (P : json -> A -> Prop) (S : A -> A -> Prop) : Prop := forall x, freads (f x) (P x) S.

Definition sees (fields : list string) (j : json) (k : string) (x : option fld) : Prop :=
  (forall y, x = Some (Got y) <-> given fields j k y) /\ (x = Some Absent <-> omitted j k) /\ (x = Some Short <-> cut_off fields j k).

Lemma occ_missing : forall k es, occ k es = [] <-> missing es k.
Proof.
  intros k es. unfold occ, missing. induction es as [|[k' v] es IH]; cbn; [tauto|].
  destruct (String.eqb_spec k k') as [->|N]; cbn; [split; [discriminate|tauto]|]. rewrite IH. intuition congruence.
Qed.
Lemma occ_app : forall k a b, occ k (a ++ b)%list = (occ k a ++ occ k b)%list.
Proof. intros k a b. unfold occ. now rewrite filter_app, map_app. Qed.
Lemma occ_only : forall k es x, occ k es = [x] <-> only es k x.
Proof.
  intros k es x. split.
  - induction es as [|[k' v] es IH]; [discriminate|]. intros H. unfold occ in H. cbn in H. destruct (String.eqb_spec k k') as [->|N].
    + cbn in H. change (v :: occ k' es = [x]) in H. assert (E : occ k' es = []) by congruence. assert (v = x) by congruence. subst v.
      exists [], es. split; [reflexivity|]. split; [intros []|now apply occ_missing].
    + change (occ k es = [x]) in H. destruct (IH H) as [b [a [-> [Hb Ha]]]]. exists ((k', v) :: b), a. split; [reflexivity|].
      split; [|exact Ha]. unfold missing. cbn [map fst In]. intros [G|G]; [now symmetry in G|auto].
  - intros [b [a [-> [Hb Ha]]]]. rewrite occ_app. apply occ_missing in Hb. apply occ_missing in Ha. rewrite Hb. unfold occ at 1. cbn.
    rewrite String.eqb_refl. cbn. fold (occ k a). now rewrite Ha.
Qed.

Lemma member_sees : forall fs es k, sees fs (JObj es) k (member es k).
Proof.
  intros fs es k. unfold sees, member. split; [intros y; split|split; split].
  - destruct (occ k es) as [|a [|b l]] eqn:E; try discriminate. intros H. constructor. apply occ_only. congruence.
  - intros H. inversion H as [? ? ? H1|]; subst. apply occ_only in H1. now rewrite H1.
  - destruct (occ k es) as [|a [|b l]] eqn:E; try discriminate. intros _. constructor. now apply occ_missing.
  - intros H. inversion H as [? ? H1]; subst. apply occ_missing in H1. now rewrite H1.
  - destruct (occ k es) as [|a [|b l]]; discriminate.
  - intros H. inversion H.
Qed.
Lemma member_rest_sees : forall fs es own k, ~ In k own -> sees fs (JObj es) k (member (rest_of own es) k).
Proof. intros fs es own k H. pose proof (member_sees fs es k) as S. unfold member in *. now rewrite occ_rest_of. Qed.

Lemma index_of_nth : forall k l, In k l -> nth_error l (index_of k l) = Some k.
Proof. intros k l. induction l as [|x l IH]; intros H; [destruct H|]. cbn. destruct (String.eqb_spec k x) as [->|N]; [reflexivity|]. destruct H; [congruence|auto]. Qed.
Lemma nth_index : forall k l n, NoDup l -> nth_error l n = Some k -> n = index_of k l.
Proof.
  intros k l. induction l as [|x l IH]; intros n HD H; [destruct n; discriminate|]. inversion HD as [|? ? HN HD']; subst. destruct n as [|n].
  - cbn in H. injection H as ->. cbn. now rewrite String.eqb_refl.
  - cbn in H. cbn. destruct (String.eqb_spec k x) as [->|_]; [|f_equal; auto]. apply nth_error_In in H. contradiction.
Qed.

Lemma view_sees : forall fs j g, NoDup fs -> view fs j = Some g -> struct_like fs j /\ forall k, In k fs -> sees fs j k (g k).
Proof.
  intros fs j g HD H. destruct j as [| | | |l|es]; try discriminate; cbn [view] in H.
  - destruct (Nat.leb_spec (List.length l) (List.length fs)) as [HL|]; [|discriminate]. apply some_inj in H. subst g.
    split; [now constructor|]. intros k Hk. pose proof (index_of_nth _ _ Hk) as HI. unfold sees. split; [intros y; split|split; split].
    + destruct (nth_error l _) eqn:E; [|discriminate]. intros H. econstructor; [exact HI|]. congruence.
    + intros H. inversion H as [|? n ? ? H1 H2]; subst. apply nth_index in H1; [|exact HD]. subst n. now rewrite H2.
    + destruct (nth_error l _); discriminate.
    + intros H. inversion H.
    + destruct (nth_error l _) eqn:E; [discriminate|]. intros _. econstructor; [exact HI|]. now apply nth_error_None.
    + intros H. inversion H as [? n ? H1 H2]; subst. apply nth_index in H1; [|exact HD]. subst n. apply nth_error_None in H2. now rewrite H2.
  - apply some_inj in H. subst g. split; [constructor|]. intros k _. apply member_sees.
Qed.
Lemma struct_view : forall fs j, struct_like fs j -> exists g, view fs j = Some g.
Proof. intros fs j [es|l H]; cbn; [eauto|]. apply Nat.leb_le in H. rewrite H. eauto. Qed.

(** ** Fields *)

Lemma dreq_freads : forall A (f : json -> option A) P S fs j k x, reader f P S -> sees fs j k x -> freads (dreq f x) (required fs j k P) S.
Proof.
  intros A f P S fs j k x HF [G _]. split.
  - intros v H. apply dreq_some in H. destruct H as [y [-> H]]. exists y. split; [now apply G|]. now apply HF.
  - intros v [y [Hy H]]. apply G in Hy. subst x. cbn. now apply HF.
Qed.
Lemma dopt_freads : forall A (f : json -> option A) P S fs j k x, reader f P S -> sees fs j k x -> freads (dopt f x) (optional fs j k P) (orel S).
Proof.
  intros A f P S fs j k x HF [G [HA _]]. split.
  - intros [v|] H.
    + destruct x as [[| |y]|]; try discriminate. exists y. split; [now apply G|]. split; [intros ->; discriminate|]. apply HF. cbn in H.
      destruct y; try discriminate; destruct (f _); congruence.
    + destruct x as [[| |y]|]; try discriminate; [left; now apply HA|]. right. apply G. destruct y; try reflexivity; cbn in H;
        destruct (f _); discriminate.
  - intros [v|].
    + intros [y [Hy [HN HP]]]. apply G in Hy. subst x. apply HF in HP. destruct HP as [v' [E HS]]. exists (Some v'). split; [|exact HS].
      cbn. destruct y; try congruence; now rewrite E.
    + intros H. exists None. split; [|exact I]. destruct H as [H|H]; [apply HA in H; now subst x|]. apply G in H. now subst x.
Qed.
Lemma ddef_freads : forall A (f : json -> option A) P (S : A -> A -> Prop) d fs j k x,
  reader f P S -> S d d -> sees fs j k x -> freads (ddef d f x) (defaulted fs j k P d) S.
Proof.
  intros A f P S d fs j k x HF HD [G [HA HS]]. split.
  - intros v H. destruct x as [[| |y]|]; try discriminate; cbn in H.
    + right. split; [left; now apply HA|congruence].
    + right. split; [right; now apply HS|congruence].
    + left. exists y. split; [now apply G|now apply HF].
  - intros v [[y [Hy HP]]|[[H|H] ->]].
    + apply G in Hy. subst x. cbn. now apply HF.
    + apply HA in H. subst x. now exists d.
    + apply HS in H. subst x. now exists d.
Qed.

Lemma freads_weak : forall A (y : option A) Q (S S' : A -> A -> Prop), (forall a b, S a b -> S' a b) -> freads y Q S -> freads y Q S'.
Proof. intros A y Q S S' HS [H1 H2]. split; [exact H1|]. intros v Hv. destruct (H2 v Hv) as [v' [E G]]. exists v'. auto. Qed.
Lemma reader_weak : forall A (f : json -> option A) P (S S' : A -> A -> Prop), (forall a b, S a b -> S' a b) -> reader f P S -> reader f P S'.
Proof. intros A f P S S' HS H x. eapply freads_weak; eauto. Qed.
Lemma orel_eq : forall A (a b : option A), orel eq a b -> a = b.
Proof. intros A [a|] [b|] H; cbn in H; try contradiction; congruence. Qed.
Lemma dopt_eq : forall A (f : json -> option A) P fs j k x, reader f P eq -> sees fs j k x -> freads (dopt f x) (optional fs j k P) eq.
Proof. intros. eapply freads_weak; [apply orel_eq|]. now apply dopt_freads. Qed.

(** ** Types of fields *)

Lemma exact_reader : forall A (f : json -> option A) (P : json -> A -> Prop), (forall x v, f x = Some v <-> P x v) -> reader f P eq.
Proof. intros A f P H x. split; intros v Hv; [now apply H|]. exists v. split; [now apply H|reflexivity]. Qed.
Lemma reader_exact : forall A (f : json -> option A) (P : json -> A -> Prop), reader f P eq -> forall x v, f x = Some v <-> P x v.
Proof. intros A f P H x v. split; [apply H|]. intros HP. apply H in HP. destruct HP as [v' [E ->]]. exact E. Qed.

Lemma text_reader : reader de_string text_of eq.
Proof. apply exact_reader. intros x v. split; [destruct x; try discriminate; intros H; injection H as ->; eexists; reflexivity|]. intros [e ->]. reflexivity. Qed.

Lemma dec_val_fold : forall s a, dec_val a s = fold_left (fun a c => (a * 10 + (N_of_ascii c - 48))%N) (list_ascii_of_string s) a.
Proof. induction s as [|c s IH]; intros a; [reflexivity|]. cbn [dec_val list_ascii_of_string fold_left]. apply IH. Qed.
Lemma tok_nat : forall t d, tok_int t = Some (false, d) <-> d = t /\ t <> "" /\ all_chars digit t.
Proof.
  intros t d. rewrite <- sall_digits. unfold tok_int. destruct t as [|c r]; [split; [discriminate|tauto]|].
  destruct (N.eqb_spec (code c) 45) as [E|E].
  - split; [destruct (sall is_digit r); discriminate|]. intros [_ [_ H]]. cbn in H. apply andb_true_iff in H. destruct H as [H _].
    unfold is_digit in H. rewrite E in H. discriminate.
  - destruct (sall is_digit (String c r)); split.
    + intros H. split; [congruence|]. split; [discriminate|reflexivity].
    + intros [-> _]. reflexivity.
    + discriminate.
    + intros [_ [_ H]]. discriminate.
Qed.
Lemma natural_reader : forall b, reader (de_uint b) (natural b) eq.
Proof.
  intros b. apply exact_reader. intros x v. split.
  - intros H. destruct x as [| |t| | |]; try discriminate. cbn in H. destruct (tok_int t) as [[[|] d]|] eqn:E; try discriminate.
    apply tok_nat in E. destruct E as [-> [E1 E2]]. destruct (N.leb_spec (dec_val 0 t) b) as [HL|]; [|discriminate]. apply some_inj in H. subst v.
    exists t. split; [reflexivity|]. split; [exact E1|]. split; [exact E2|]. split; [apply dec_val_fold|exact HL].
  - intros [t [-> [H1 [H2 [H3 H4]]]]]. cbn. assert (E : tok_int t = Some (false, t)) by (apply tok_nat; auto). rewrite E.
    unfold digit_number in H3. rewrite <- dec_val_fold in H3. rewrite <- H3. apply N.leb_le in H4. now rewrite H4.
Qed.

Lemma list_reader : forall A (f : json -> option A) P S, reader f P S -> reader (de_vec f) (list_of P) (Forall2 S).
Proof.
  intros A f P S HF x. split.
  - intros v H. destruct x as [| | | |xs|]; try discriminate. cbn in H. apply all_some_Forall2 in H. exists xs. split; [reflexivity|].
    induction H as [|a b l r H1 H2 IH]; constructor; [now apply HF|exact IH].
  - intros v [xs [-> H]]. cbn. induction H as [|a b l r H1 H2 IH]; [exists []; split; [reflexivity|constructor]|].
    destruct IH as [v' [E F]]. apply HF in H1. destruct H1 as [b' [E1 F1]]. exists (b' :: v'). cbn. rewrite E1, E. split; [reflexivity|now constructor].
Qed.
Lemma Forall2_eq : forall A (a b : list A), Forall2 eq a b -> a = b.
Proof. intros A a b H. induction H; congruence. Qed.
Lemma list_eq : forall A (f : json -> option A) P, reader f P eq -> reader (de_vec f) (list_of P) eq.
Proof. intros A f P H. eapply reader_weak; [apply Forall2_eq|]. now apply list_reader. Qed.

Lemma variant_reader : forall {bf} A (name : A -> string) (l : list A) table,
  (forall e s t, de_enum bf name l (JStr e s) = Some t <-> In (s, t) table) -> reader (de_enum bf name l) (variant bf table) eq.
Proof.
  intros bf A name l table H. apply exact_reader. intros x v. split.
  - intros E. destruct x as [| | |e s| |es]; try discriminate.
    + exists s. split; [now apply (H e)|left; now exists e].
    + destruct es as [|[s y] [|? ?]]; try discriminate; try (destruct y as [| | | | |[|? ?]]; discriminate). destruct y as [| | | | |[|? ?]]; try discriminate.
      * exists s. split; [now apply (H false)|right; now left].
      * cbn [de_enum] in E. destruct bf; [|discriminate]. exists s. split; [now apply (H false)|right; right; now split].
  - intros [s [HI [[e ->] | [-> | [-> ->]]]]]; [now apply H|now apply (H false) in HI|now apply (H false) in HI].
Qed.
Lemma message_type_reader : forall {bf}, reader (de_message_type bf) (variant bf message_type_table) eq.
Proof. intros bf. apply variant_reader. exact (message_type_decode (bf := bf)). Qed.
Lemma key_ops_reader : forall {bf}, reader (de_key_ops bf) (variant bf key_ops_table) eq.
Proof. intros bf. apply variant_reader. exact (key_ops_decode (bf := bf)). Qed.
Lemma key_algorithm_reader : forall {bf}, reader (de_key_algorithm bf) (variant bf key_algorithm_table) eq.
Proof. intros bf. apply variant_reader. exact (key_algorithm_decode (bf := bf)). Qed.

(** ** Maps *)

Lemma map_of_entries_get : forall V (es : list (string * V)) k, map_get k (map_of_entries es) = last_get k es.
Proof.
  intros V es k. induction es as [|[k' v'] es IH] using rev_ind; [reflexivity|]. rewrite map_of_entries_snoc. unfold last_get.
  rewrite rev_app_distr. cbn [rev app map_get]. destruct (String.eqb_spec k k') as [->|N]; [apply map_get_insert_same|].
  rewrite map_get_insert_other; [exact IH|exact N].
Qed.
Lemma last_binding_map2 : forall V (P : json -> V -> Prop) es r k v,
  Forall2 (fun a b => fst b = fst a /\ P (snd a) (snd b)) es r -> last_binding r k v -> exists j, last_binding es k j /\ P j v.
Proof.
  intros V P es r k v H [b [a [-> HN]]]. apply Forall2_app_inv_r in H. destruct H as [eb [e2 [H1 [H2 ->]]]].
  inversion H2 as [|[k' j] y ea y2 [HK HP] HA]; subst. cbn in HK, HP. subst k'. exists j. split; [|exact HP].
  exists eb, ea. split; [reflexivity|]. intros G. apply HN. clear -HA G. induction HA as [|x y l l' [HK _] HA IH]; [exact G|].
  cbn in *. destruct G as [G|G]; [left; congruence|right; auto].
Qed.
Lemma last_binding_rest : forall ns (es : list (string * json)) k x, ~ In k ns -> (last_binding (rest_of ns es) k x <-> last_binding es k x).
Proof.
  intros ns es k x Hk. rewrite <- !last_get_binding. unfold last_get, rest_of. 
  replace (rev (filter (fun e : string * json => negb (smem (fst e) ns)) es)) with (filter (fun e : string * json => negb (smem (fst e) ns)) (rev es)).
  - induction (rev es) as [|[k' v] l IH]; [reflexivity|]. cbn [filter fst]. destruct (smem k' ns) eqn:E; cbn [negb map_get].
    + destruct (String.eqb_spec k k') as [->|N]; [|exact IH]. apply smem_In in E. contradiction.
    + destruct (String.eqb_spec k k') as [->|N]; [reflexivity|exact IH].
  - clear. induction es as [|a es IH]; [reflexivity|]. cbn [rev filter]. rewrite filter_app, IH. cbn. destruct (negb _); [reflexivity|]. apply app_nil_r.
Qed.
Lemma In_rest : forall ns (es : list (string * json)) k x, In (k, x) (rest_of ns es) <-> In (k, x) es /\ ~ In k ns.
Proof.
  intros ns es k x. unfold rest_of. rewrite filter_In. cbn. rewrite negb_true_iff, <- smem_In. destruct (smem k ns); intuition congruence.
Qed.

Lemma unique_same : forall V (a b : list (string * V)), unique_keys a -> unique_keys b -> (forall k v, In (k, v) a <-> In (k, v) b) -> Permutation a b.
Proof. intros V a b Ha Hb H. apply NoDup_Permutation; [eapply NoDup_map_inv; exact Ha|eapply NoDup_map_inv; exact Hb|]. intros [k v]. apply H. Qed.

Lemma collected_freads : forall V R (f : json -> option V) P ns es, drt_ok R -> reader f P eq ->
  freads (de_map R f (rest_of ns es)) (collected ns P es) same_map.
Proof.
  intros V R f P ns es HR HF.
  assert (G : forall m, de_map R f (rest_of ns es) = Some m -> collected ns P es m).
  { intros m H. pose proof (de_map_unique _ _ _ _ _ HR H) as HU. split; [exact HU|]. unfold de_map in H.
    destruct (all_some _) as [l|] eqn:E; [|discriminate]. apply some_inj in H. subst m. apply all_some_Forall2 in E.
    assert (HE : Forall2 (fun a b => fst b = fst a /\ P (snd a) (snd b)) (rest_of ns es) l).
    { clear HU. induction E as [|[k x] [k' v] xs ys H1 H2 IH]; constructor; [|exact IH]. cbn in *. destruct (f x) eqn:Ef; [|discriminate].
      cbn in H1. injection H1 as <- <-. split; [reflexivity|]. now apply HF. }
    split.
    - intros k v. assert (HI : In (k, v) (hord R V (map_of_entries l)) <-> last_binding l k v).
      { rewrite <- last_get_binding, <- map_of_entries_get. destruct HR as [_ HR]. split.
        - intros H. apply (Permutation_in _ (HR V _)) in H. apply In_map_get; [apply map_of_entries_NoDup|exact H].
        - intros H. apply map_get_In in H. eapply Permutation_in; [apply Permutation_sym, HR|exact H]. }
      rewrite HI. split.
      + intros H. pose proof (last_binding_map2 _ _ _ _ _ _ HE H) as [x [Hx HP]].
        assert (Hk : ~ In k ns) by (apply last_binding_In in Hx; apply In_rest in Hx; tauto). split; [exact Hk|].
        exists x. split; [now apply last_binding_rest in Hx|exact HP].
      + intros [Hk [x [Hx HP]]]. apply (last_binding_rest ns) in Hx; [|exact Hk]. destruct Hx as [b [a [Eb Ha]]]. rewrite Eb in HE.
        apply Forall2_app_inv_l in HE. destruct HE as [b' [c' [HB [HC ->]]]]. inversion HC as [|? [k2 v2] ? a' [H1 H2] H3]; subst.
        cbn in H1, H2. subst k2. exists b', a'. split.
        * pose proof (reader_exact _ _ _ HF) as HX. apply HX in H2. apply HX in HP. rewrite HP in H2. injection H2 as ->. reflexivity.
        * intros HI'. apply Ha. clear - H3 HI'. induction H3 as [|x y xs ys [E _] H3 IH]; [destruct HI'|]. cbn in *. destruct HI' as [HI'|HI']; [left; congruence|right; auto].
    - intros k x Hx Hk. assert (Hr : In (k, x) (rest_of ns es)) by (now apply In_rest). clear - HE Hr.
      induction HE as [|a b xs ys [_ H] HE IH]; [destruct Hr|]. destruct Hr as [->|Hr]; [now exists (snd b)|auto]. }
  split; [exact G|]. intros m [HU [HI HA]].
  assert (E : exists l, all_some (map (fun kv => okv (fst kv) (f (snd kv))) (rest_of ns es)) = Some l).
  { apply all_some_intro. intros [k x] Hx. apply In_rest in Hx. destruct Hx as [Hx Hk]. destruct (HA k x Hx Hk) as [v Hv].
    apply HF in Hv. destruct Hv as [v' [E _]]. exists (k, v'). cbn. now rewrite E. }
  destruct E as [l E]. assert (ED : de_map R f (rest_of ns es) = Some (hord R V (map_of_entries l))) by (unfold de_map; now rewrite E).
  exists (hord R V (map_of_entries l)). split; [exact ED|]. destruct (G _ ED) as [HU' [HI' _]]. apply unique_same; try assumption.
  intros k v. rewrite HI, HI'. reflexivity.
Qed.
Lemma map_reader : forall V R (f : json -> option V) P, drt_ok R -> reader f P eq ->
  reader (fun j => match j with JObj es => de_map R f es | _ => None end) (map_of P) same_map.
Proof.
  intros V R f P HR HF x.
  assert (E : forall es, rest_of [] es = es). { intros es. apply rest_of_all. apply Forall_forall. intros k _ []. }
  destruct x as [| | | | |es]; try (split; [discriminate|intros v [es [H _]]; discriminate]).
  pose proof (collected_freads V R f P [] es HR HF) as [G1 G2]. rewrite E in *. split.
  - intros v H. exists es. auto.
  - intros v [es' [H HC]]. injection H as <-. auto.
Qed.

(** ** Buffers *)

Lemma readable_iff : forall R j, num_wf j -> (nums_ok R j = true <-> readable R j).
Proof.
  intros R. apply (json_rect2 (fun j => num_wf j -> (nums_ok R j = true <-> readable R j))).
  - split; [constructor|reflexivity].
  - split; [constructor|reflexivity].
  - intros t Hw. cbn. split.
    + intros H. destruct (vnum R t) as [t'|] eqn:E; [|discriminate]. econstructor. apply vnum_reads; [exact Hw|exact E].
    + intros H. inversion H as [| |? t' HN| | |]; subst. apply vnum_reads in HN; [|exact Hw]. now rewrite HN.
  - split; [constructor|reflexivity].
  - intros l IH Hw. apply num_wf_arr in Hw. rewrite Forall_forall in IH, Hw. cbn [nums_ok]. rewrite forallb_forall. split.
    + intros H. constructor. intros x Hx. apply IH; auto.
    + intros H x Hx. inversion H; subst. apply IH; auto.
  - intros l IH Hw. apply num_wf_obj in Hw. rewrite Forall_forall in IH, Hw. cbn [nums_ok]. rewrite forallb_forall. split.
    + intros H. constructor. intros x Hx. apply IH; auto.
    + intros H x Hx. inversion H; subst. apply IH; auto.
Qed.
Lemma buffered_iff : forall R own es, num_wf (JObj es) ->
  (forallb (fun e => buf_ok R (max_depth - 1) (snd e)) (rest_of own es) = true <-> buffered R own es).
Proof.
  intros R own es Hw. apply num_wf_obj in Hw. rewrite Forall_forall in Hw. rewrite forallb_forall. unfold buffered. change (max_depth - 1) with 126. split.
  - intros H k x Hx Hk. specialize (H (k, x)). cbn [snd] in H. assert (B : buf_ok R 126 x = true) by (apply H; now apply In_rest).
    unfold buf_ok in B. apply andb_true_iff in B. destruct B as [B1 B2]. apply Nat.leb_le in B1. split; [now apply nested_depth|].
    apply readable_iff; [|exact B2]. exact (Hw _ Hx).
  - intros H [k x] Hx. apply In_rest in Hx. destruct Hx as [Hx Hk]. destruct (H k x Hx Hk) as [H1 H2]. cbn [snd]. unfold buf_ok.
    apply nested_depth in H1. apply Nat.leb_le in H1. rewrite H1. apply readable_iff; [|exact H2]. exact (Hw _ Hx).
Qed.
Lemma body_reader : forall R x v, num_wf x -> (value_of R (max_depth - 1) x = Some v <-> nested 126 x /\ reads R x v).
Proof.
  intros R x v Hw. unfold value_of. change (max_depth - 1) with 126. rewrite nested_depth, <- Nat.leb_le, <- (vof_iff R x v Hw).
  destruct (depth x <=? 126)%nat; intuition congruence.
Qed.
