(** Facts about Serde.v: decoding what was encoded. *)

From Coq Require Import Ascii String Arith NArith ZArith ZifyN List Bool Lia Permutation.
From Verif Require Import Bytes Base64 Utf8 Json Value Types Serde BytesFacts Base64Facts Utf8Facts JsonFacts ValueFacts.
Import ListNotations.
Local Open Scope string_scope.

(** ** Members of entry lists *)

Lemma occ_app : forall k a b, occ k (a ++ b)%list = (occ k a ++ occ k b)%list.
Proof. intros k a b. unfold occ. now rewrite filter_app, map_app. Qed.
Lemma occ_nil : forall k, occ k [] = [].
Proof. reflexivity. Qed.
Lemma occ_cons : forall k k' v r, occ k ((k', v) :: r) = if String.eqb k k' then v :: occ k r else occ k r.
Proof. intros k k' v r. unfold occ. simpl. destruct (String.eqb k k'); reflexivity. Qed.

Definition olist {A} (f : A -> json) (o : option A) : list json := match o with Some a => [f a] | None => [] end.
Definition vlist {A} (f : A -> json) (l : list A) : list json := match l with [] => [] | _ => [JArr (map f l)] end.

Lemma occ_sopt : forall A k k' (f : A -> json) o, occ k (sopt k' f o) = if String.eqb k k' then olist f o else [].
Proof. intros A k k' f [a|]; simpl; unfold occ; simpl; destruct (String.eqb k k'); reflexivity. Qed.
Lemma occ_svec : forall A k k' (f : A -> json) l, occ k (svec k' f l) = if String.eqb k k' then vlist f l else [].
Proof. intros A k k' f [|a l]; simpl; unfold occ; simpl; destruct (String.eqb k k'); reflexivity. Qed.

Lemma occ_fresh : forall k es, ~ In k (keys es) -> occ k es = [].
Proof.
  intros k es. induction es as [|[k' v] es IH]; intros H; [reflexivity|]. rewrite occ_cons.
  destruct (String.eqb_spec k k') as [->|Hne].
  - exfalso. apply H. now left.
  - apply IH. intros Hin. apply H. now right.
Qed.
Lemma occ_absent : forall k es, occ k es = [] -> ~ In k (keys es).
Proof.
  intros k es. induction es as [|[k' v] es IH]; intros H; [intros []|]. rewrite occ_cons in H. simpl.
  destruct (String.eqb_spec k k') as [->|Hne]; [discriminate|]. intros [->|Hin]; [congruence|]. now apply IH.
Qed.
Lemma keys_smap : forall m, keys (smap m) = keys m.
Proof. intros m. unfold keys, smap. rewrite map_map. reflexivity. Qed.
Lemma keys_app : forall V (a b : list (string * V)), keys (a ++ b)%list = (keys a ++ keys b)%list.
Proof. intros. apply map_app. Qed.
Lemma occ_smap : forall k m, ~ In k (keys m) -> occ k (smap m) = [].
Proof. intros k m H. apply occ_fresh. now rewrite keys_smap. Qed.

Definition ofld {A} (f : A -> json) (o : option A) : option fld :=
  match o with Some a => Some (Got (f a)) | None => Some Absent end.

Lemma member_opt : forall A es k (f : A -> json) o, occ k es = olist f o -> member es k = ofld f o.
Proof. intros A es k f [a|] H; unfold member; rewrite H; reflexivity. Qed.
Lemma member_got : forall es k j, occ k es = [j] -> member es k = Some (Got j).
Proof. intros es k j H. unfold member. now rewrite H. Qed.
Lemma member_absent : forall es k, occ k es = [] -> member es k = Some Absent.
Proof. intros es k H. unfold member. now rewrite H. Qed.

(** Decoding an optional field. *)
Lemma dopt_ofld : forall A B (f : A -> json) (g : json -> option B) (h : A -> B) o,
  (forall a, o = Some a -> f a <> JNull /\ g (f a) = Some (h a)) -> dopt g (ofld f o) = Some (option_map h o).
Proof.
  intros A B f g h [a|] H; [|reflexivity]. destruct (H a eq_refl) as [H1 H2]. simpl.
  destruct (f a) eqn:E; try congruence; now rewrite H2.
Qed.
Lemma dopt_ofld_id : forall A (f : A -> json) (g : json -> option A) o,
  (forall a, o = Some a -> f a <> JNull /\ g (f a) = Some a) -> dopt g (ofld f o) = Some o.
Proof. intros A f g o H. rewrite (dopt_ofld _ _ f g (fun a => a)); [now destruct o|exact H]. Qed.

Lemma dopt_str : forall o, dopt de_string (ofld jstr o) = Some o.
Proof. intros [s|]; reflexivity. Qed.
Lemma dopt_snull : forall o, dopt de_string (Some (Got (snull jstr o))) = Some o.
Proof. intros [s|]; reflexivity. Qed.

Lemma de_uint_jnat : forall b n, (n <= b)%N -> de_uint b (jnat n) = Some n.
Proof.
  intros b n H. unfold de_uint, jnat. rewrite dec_tok_int, dec_of_N_val. apply N.leb_le in H. now rewrite H.
Qed.
Lemma dopt_u64 : forall o, (forall n, o = Some n -> (n <= u64_max)%N) -> dopt de_u64 (ofld jnat o) = Some o.
Proof.
  intros o H. apply dopt_ofld_id. intros n Hn. split; [discriminate|]. apply de_uint_jnat. now apply H.
Qed.

Lemma de_vec_map : forall A B (f : A -> json) (g : json -> option B) (h : A -> B) l,
  (forall a, In a l -> g (f a) = Some (h a)) -> de_vec g (JArr (map f l)) = Some (map h l).
Proof.
  intros A B f g h l H. cbn [de_vec]. rewrite map_map. now apply all_some_total.
Qed.
Lemma de_vec_str : forall l, de_vec de_string (JArr (map jstr l)) = Some l.
Proof. intros l. rewrite (de_vec_map _ _ _ _ (fun x => x)); [now rewrite map_id|reflexivity]. Qed.

Lemma find_message_type : forall t, find_name message_type_name all_message_types (message_type_name t) = Some t.
Proof. destruct t; reflexivity. Qed.
Lemma find_key_ops : forall t, find_name key_ops_name all_key_ops (key_ops_name t) = Some t.
Proof. destruct t; reflexivity. Qed.
Lemma find_key_algorithm : forall t, find_name key_algorithm_name all_key_algorithms (key_algorithm_name t) = Some t.
Proof. destruct t; reflexivity. Qed.

Lemma de_map_str : forall R m, NoDup (keys m) -> de_map R de_string (smap m) = Some (hord R string m).
Proof.
  intros R m H. unfold de_map, smap. rewrite map_map.
  rewrite (all_some_total _ _ _ (fun kv => kv)).
  - now rewrite map_id, map_of_entries_nodup.
  - intros [k v] _. reflexivity.
Qed.
Lemma de_map_u64 : forall R m, NoDup (keys m) -> Forall (fun kv => (snd kv <= u64_max)%N) m ->
  de_map R de_u64 (map (fun kv => (fst kv, jnat (snd kv))) m) = Some (hord R N m).
Proof.
  intros R m H Hb. unfold de_map. rewrite map_map.
  rewrite (all_some_total _ _ _ (fun kv => kv)).
  - now rewrite map_id, map_of_entries_nodup.
  - intros [k v] Hin. rewrite Forall_forall in Hb. specialize (Hb _ Hin). cbn [fst snd] in *.
    unfold de_u64. now rewrite de_uint_jnat.
Qed.

(** Leftover members. *)
Lemma rest_of_app : forall ns a b, rest_of ns (a ++ b)%list = (rest_of ns a ++ rest_of ns b)%list.
Proof. intros. apply filter_app. Qed.
Lemma rest_of_none : forall ns es, Forall (fun k => In k ns) (keys es) -> rest_of ns es = [].
Proof.
  intros ns es. unfold rest_of. induction es as [|[k v] es IH]; intros H; [reflexivity|]. simpl.
  inversion H as [|x y H1 H2]; subst. apply smem_In in H1. simpl in H1. rewrite H1. simpl. now apply IH.
Qed.
Lemma rest_of_all : forall ns es, Forall (fun k => ~ In k ns) (keys es) -> rest_of ns es = es.
Proof.
  intros ns es. unfold rest_of. induction es as [|[k v] es IH]; intros H; [reflexivity|]. simpl.
  inversion H as [|x y H1 H2]; subst. apply smem_nIn in H1. simpl in H1. rewrite H1. simpl. f_equal. now apply IH.
Qed.
Lemma occ_rest_of : forall ns es k, ~ In k ns -> occ k (rest_of ns es) = occ k es.
Proof.
  intros ns es k Hk. unfold rest_of. induction es as [|[k' v] es IH]; [reflexivity|]. simpl.
  destruct (smem k' ns) eqn:E; simpl; rewrite !occ_cons, IH; [|reflexivity].
  destruct (String.eqb_spec k k') as [->|]; [|reflexivity]. apply smem_In in E. contradiction.
Qed.

Ltac eqb_lit :=
  repeat match goal with
  | |- context [String.eqb ?a ?b] =>
      let v := eval vm_compute in (String.eqb a b) in
      match v with
      | true => change (String.eqb a b) with true
      | false => change (String.eqb a b) with false
      end
  end; cbv iota.

Ltac occ_tac := rewrite ?occ_app, ?occ_sopt, ?occ_svec, ?occ_cons, ?occ_nil; eqb_lit; cbn [app].

Ltac not_in := let H := fresh in intro H; simpl in H; repeat (destruct H as [H|H]; [discriminate|]); exact H.

(** ** Keys and JWKs *)

Lemma de_epk_ser : forall e, de_epk (ser_epk e) = Some e.
Proof. intros [a b c [d|]]; reflexivity. Qed.

(** Custom members of a JWK: distinct names that are not JWK fields. *)
Definition fresh_keys {V} (m : list (string * V)) (ns : list string) : Prop := Forall (fun k => ~ In k ns) (keys m).
Definition jwk_ok (k : jwk) : Prop := NoDup (keys (jk_other k)) /\ fresh_keys (jk_other k) jwk_fields.

(** The JWK that comes out of decoding: custom members in the order of the new HashMap. *)
Definition re_jwk (R : drt) (k : jwk) : jwk :=
  {| jk_kty := jk_kty k; jk_use := jk_use k; jk_crv := jk_crv k; jk_key_ops := jk_key_ops k; jk_alg := jk_alg k;
     jk_kid := jk_kid k; jk_epk := jk_epk k; jk_other := hord R string (jk_other k) |}.

Lemma fresh_occ : forall m ns k, fresh_keys m ns -> In k ns -> occ k (smap m) = [].
Proof.
  intros m ns k Hf Hk. apply occ_smap. intros Hin. unfold fresh_keys in Hf. rewrite Forall_forall in Hf.
  now apply (Hf k Hin).
Qed.

Lemma de_jwk_ser : forall {bf} R k, jwk_ok k -> de_jwk R bf (ser_jwk k) = Some (re_jwk R k).
Proof.
  intros bf R k [Hnd Hfr]. unfold ser_jwk, de_jwk.
  set (es := (sopt "kty" jstr (jk_kty k) ++ _)%list).
  assert (H : forall n, In n jwk_fields -> occ n (smap (jk_other k)) = []) by (intros; now apply (fresh_occ _ jwk_fields)).
  rewrite (member_opt _ es "kty" jstr (jk_kty k)).
  2:{ unfold es. occ_tac. rewrite H by (simpl; tauto). now rewrite ?app_nil_r. }
  rewrite dopt_str. cbn [obind].
  rewrite (member_opt _ es "use" jstr (jk_use k)).
  2:{ unfold es. occ_tac. rewrite H by (simpl; tauto). now rewrite ?app_nil_r. }
  rewrite dopt_str. cbn [obind].
  rewrite (member_opt _ es "crv" jstr (jk_crv k)).
  2:{ unfold es. occ_tac. rewrite H by (simpl; tauto). now rewrite ?app_nil_r. }
  rewrite dopt_str. cbn [obind].
  rewrite (member_got es "key_ops" (JArr (map (fun o => jstr (key_ops_name o)) (jk_key_ops k)))).
  2:{ unfold es. occ_tac. rewrite H by (simpl; tauto). reflexivity. }
  unfold dreq at 1. rewrite (de_vec_map _ _ _ _ (fun x => x)); [|intros; apply find_key_ops]. rewrite map_id. cbn [obind].
  rewrite (member_got es "alg" (jstr (key_algorithm_name (jk_alg k)))).
  2:{ unfold es. occ_tac. rewrite H by (simpl; tauto). reflexivity. }
  unfold dreq. unfold de_key_algorithm, de_enum, jstr at 1. rewrite find_key_algorithm. cbn [obind].
  rewrite (member_opt _ es "kid" jstr (jk_kid k)).
  2:{ unfold es. occ_tac. rewrite H by (simpl; tauto). now rewrite ?app_nil_r. }
  rewrite dopt_str. cbn [obind].
  rewrite (member_opt _ es "epk" ser_epk (jk_epk k)).
  2:{ unfold es. occ_tac. rewrite H by (simpl; tauto). now rewrite ?app_nil_r. }
  rewrite dopt_ofld_id; [|intros e _; split; [discriminate|apply de_epk_ser]]. cbn [obind].
  replace (rest_of jwk_fields es) with (smap (jk_other k)).
  - rewrite de_map_str by assumption. reflexivity.
  - unfold es. rewrite !rest_of_app.
    assert (Hs : forall A n (f : A -> json) o, In n jwk_fields -> rest_of jwk_fields (sopt n f o) = []).
    { intros A n f [a|] Hn; [|reflexivity]. apply rest_of_none. constructor; [exact Hn|constructor]. }
    rewrite !Hs by (simpl; tauto). rewrite (rest_of_all _ (smap _)) by (rewrite keys_smap; exact Hfr). reflexivity.
Qed.

(** ** JWM headers *)

Definition ojwk_ok (o : option jwk) : Prop := forall k, o = Some k -> jwk_ok k.
Definition jwm_ok (h : jwm_header) : Prop := ojwk_ok (jh_jwk h) /\ ojwk_ok (jh_epk h).
Definition re_jwm (R : drt) (h : jwm_header) : jwm_header :=
  {| jh_typ := jh_typ h; jh_enc := jh_enc h; jh_kid := jh_kid h; jh_skid := jh_skid h; jh_alg := jh_alg h;
     jh_jku := jh_jku h; jh_jwk := option_map (re_jwk R) (jh_jwk h); jh_epk := option_map (re_jwk R) (jh_epk h);
     jh_cty := jh_cty h |}.

Lemma ser_jwk_nonnull : forall k, ser_jwk k <> JNull.
Proof. discriminate. Qed.

Lemma de_jwm_entries : forall {bf} R h pre tail, jwm_ok h ->
  (forall k, In k jwm_fields -> occ k pre = []) -> (forall k, In k jwm_fields -> occ k tail = []) ->
  de_jwm_from R bf (member (pre ++ jwm_entries h ++ tail)%list) = Some (re_jwm R h).
Proof.
  intros bf R h pre tail [Hj He] Hp Ht. unfold de_jwm_from. set (es := (pre ++ jwm_entries h ++ tail)%list).
  assert (H : forall k, In k jwm_fields -> occ k es = occ k (jwm_entries h)).
  { intros k Hk. unfold es. rewrite !occ_app, Hp, Ht by assumption. cbn [app]. now rewrite app_nil_r. }
  unfold jwm_entries in H.
  assert (Hjwk : forall o, ojwk_ok o -> dopt (de_jwk R bf) (ofld ser_jwk o) = Some (option_map (re_jwk R) o)).
  { intros o Ho. apply dopt_ofld. intros a Ha. split; [apply ser_jwk_nonnull|]. apply de_jwk_ser. now apply Ho. }
  rewrite (member_got es "typ" (jstr (message_type_name (jh_typ h)))).
  2:{ rewrite H by (simpl; tauto). occ_tac. reflexivity. }
  unfold dreq, de_message_type, de_enum, jstr at 1. rewrite find_message_type. cbn [obind].
  rewrite (member_opt _ es "enc" jstr (jh_enc h)), dopt_str; [cbn [obind]|rewrite H by (simpl; tauto); occ_tac; now rewrite ?app_nil_r].
  rewrite (member_opt _ es "kid" jstr (jh_kid h)), dopt_str; [cbn [obind]|rewrite H by (simpl; tauto); occ_tac; now rewrite ?app_nil_r].
  rewrite (member_opt _ es "skid" jstr (jh_skid h)), dopt_str; [cbn [obind]|rewrite H by (simpl; tauto); occ_tac; now rewrite ?app_nil_r].
  rewrite (member_opt _ es "alg" jstr (jh_alg h)), dopt_str; [cbn [obind]|rewrite H by (simpl; tauto); occ_tac; now rewrite ?app_nil_r].
  rewrite (member_opt _ es "jku" jstr (jh_jku h)), dopt_str; [cbn [obind]|rewrite H by (simpl; tauto); occ_tac; now rewrite ?app_nil_r].
  rewrite (member_opt _ es "jwk" ser_jwk (jh_jwk h)), Hjwk; [cbn [obind]|assumption|rewrite H by (simpl; tauto); occ_tac; now rewrite ?app_nil_r].
  rewrite (member_opt _ es "epk" ser_jwk (jh_epk h)), Hjwk; [cbn [obind]|assumption|rewrite H by (simpl; tauto); occ_tac; now rewrite ?app_nil_r].
  rewrite (member_opt _ es "cty" jstr (jh_cty h)), dopt_str; [cbn [obind]|rewrite H by (simpl; tauto); occ_tac; now rewrite ?app_nil_r].
  reflexivity.
Qed.

Lemma de_jwm_ser : forall {bf} R h, jwm_ok h -> de_jwm R bf (ser_jwm h) = Some (re_jwm R h).
Proof.
  intros bf R h Hh. unfold de_jwm, ser_jwm, view. cbn [obind].
  pose proof (de_jwm_entries (bf := bf) R h [] [] Hh ltac:(reflexivity) ltac:(reflexivity)) as H.
  cbn [app] in H. now rewrite app_nil_r in H.
Qed.

(** ** DIDComm headers *)

Lemma de_prior_ser : forall p, de_prior (ser_prior p) = Some p.
Proof. intros [[s|] i]; reflexivity. Qed.

Definition onum_ok (o : option N) : Prop := forall n, o = Some n -> (n <= u64_max)%N.
Definition thread_ok (t : thread) : Prop :=
  onum_ok (th_sender_order t) /\
  (forall m, th_received_orders t = Some m -> NoDup (keys m) /\ Forall (fun kv => (snd kv <= u64_max)%N) m).
Definition re_thread (R : drt) (t : thread) : thread :=
  {| th_thid := th_thid t; th_pthid := th_pthid t; th_sender_order := th_sender_order t;
     th_received_orders := option_map (hord R N) (th_received_orders t); th_goal_code := th_goal_code t |}.

Lemma de_thread_ser : forall R t, thread_ok t -> de_thread R (ser_thread t) = Some (re_thread R t).
Proof.
  intros R t [Hn Hm]. unfold de_thread, ser_thread, view. cbn [obind]. set (es := (_ ++ _)%list).
  rewrite (member_got es "thid" (jstr (th_thid t))); [|unfold es; occ_tac; reflexivity]. cbn [dreq de_string jstr obind].
  rewrite (member_got es "pthid" (jstr (th_pthid t))); [|unfold es; occ_tac; reflexivity]. cbn [dreq de_string jstr obind].
  rewrite (member_opt _ es "sender_order" jnat (th_sender_order t)); [|unfold es; occ_tac; now rewrite ?app_nil_r].
  rewrite dopt_u64 by assumption. cbn [obind].
  rewrite (member_opt _ es "received_orders" (fun m => JObj (map (fun kv => (fst kv, jnat (snd kv))) m)) (th_received_orders t));
    [|unfold es; occ_tac; now rewrite ?app_nil_r].
  rewrite (dopt_ofld _ _ _ _ (hord R N)).
  2:{ intros m E. split; [discriminate|]. destruct (Hm m E). now apply de_map_u64. }
  cbn [obind].
  rewrite (member_opt _ es "goal_code" jstr (th_goal_code t)); [|unfold es; occ_tac; now rewrite ?app_nil_r].
  rewrite dopt_str. reflexivity.
Qed.

Definition othread_ok (o : option thread) : Prop := forall t, o = Some t -> thread_ok t.
(** Names a custom header must avoid to be read back as a custom header. *)
Definition did_ok (d : didcomm_header) : Prop :=
  NoDup (keys (dh_other d)) /\ fresh_keys (dh_other d) didcomm_fields /\
  onum_ok (dh_created d) /\ onum_ok (dh_expires d) /\ othread_ok (dh_thread d).
Definition re_did (R : drt) (d : didcomm_header) : didcomm_header :=
  {| dh_id := dh_id d; dh_thid := dh_thid d; dh_pthid := dh_pthid d; dh_type := dh_type d; dh_to := dh_to d;
     dh_from := dh_from d; dh_created := dh_created d; dh_expires := dh_expires d; dh_from_prior := dh_from_prior d;
     dh_thread := option_map (re_thread R) (dh_thread d); dh_other := hord R string (dh_other d) |}.

Lemma de_didcomm_entries : forall R d, did_ok d -> dh_to d <> [] ->
  de_didcomm R (didcomm_entries d) = Some (re_did R d).
Proof.
  intros R d (Hnd & Hfr & Hc & Hx & Ht) Hto. unfold de_didcomm. set (es := didcomm_entries d).
  assert (H : forall n, In n didcomm_fields -> occ n (smap (dh_other d)) = []) by (intros; now apply (fresh_occ _ didcomm_fields)).
  assert (Hvl : vlist jstr (dh_to d) = [JArr (map jstr (dh_to d))]) by (destruct (dh_to d); [congruence|reflexivity]).
  rewrite (member_got es "id" (jstr (dh_id d))).
  2:{ unfold es, didcomm_entries; occ_tac. rewrite H by (simpl; tauto). reflexivity. }
  cbn [dreq de_string jstr obind].
  rewrite (member_opt _ es "thid" jstr (dh_thid d)).
  2:{ unfold es, didcomm_entries; occ_tac. rewrite H by (simpl; tauto). now rewrite ?app_nil_r. }
  rewrite dopt_str. cbn [obind].
  rewrite (member_opt _ es "pthid" jstr (dh_pthid d)).
  2:{ unfold es, didcomm_entries; occ_tac. rewrite H by (simpl; tauto). now rewrite ?app_nil_r. }
  rewrite dopt_str. cbn [obind].
  rewrite (member_got es "type" (jstr (dh_type d))).
  2:{ unfold es, didcomm_entries; occ_tac. rewrite H by (simpl; tauto). reflexivity. }
  cbn [dreq de_string jstr obind].
  rewrite (member_got es "to" (JArr (map jstr (dh_to d)))).
  2:{ unfold es, didcomm_entries; occ_tac. rewrite H, Hvl by (simpl; tauto). reflexivity. }
  unfold dreq at 1. rewrite de_vec_str. cbn [obind].
  rewrite (member_got es "from" (snull jstr (dh_from d))).
  2:{ unfold es, didcomm_entries; occ_tac. rewrite H by (simpl; tauto). reflexivity. }
  rewrite dopt_snull. cbn [obind].
  rewrite (member_opt _ es "created_time" jnat (dh_created d)).
  2:{ unfold es, didcomm_entries; occ_tac. rewrite H by (simpl; tauto). now rewrite ?app_nil_r. }
  rewrite dopt_u64 by assumption. cbn [obind].
  rewrite (member_opt _ es "expires_time" jnat (dh_expires d)).
  2:{ unfold es, didcomm_entries; occ_tac. rewrite H by (simpl; tauto). now rewrite ?app_nil_r. }
  rewrite dopt_u64 by assumption. cbn [obind].
  rewrite (member_opt _ es "from_prior" ser_prior (dh_from_prior d)).
  2:{ unfold es, didcomm_entries; occ_tac. rewrite H by (simpl; tauto). now rewrite ?app_nil_r. }
  rewrite dopt_ofld_id; [|intros p _; split; [discriminate|apply de_prior_ser]]. cbn [obind].
  rewrite (member_opt _ es "~thread" ser_thread (dh_thread d)).
  2:{ unfold es, didcomm_entries; occ_tac. rewrite H by (simpl; tauto). now rewrite ?app_nil_r. }
  rewrite (dopt_ofld _ _ _ _ (re_thread R)).
  2:{ intros t E. split; [discriminate|]. apply de_thread_ser. now apply Ht. }
  cbn [obind].
  replace (rest_of didcomm_fields es) with (smap (dh_other d)).
  - rewrite de_map_str by assumption. reflexivity.
  - unfold es, didcomm_entries. rewrite !rest_of_app.
    assert (Hs : forall A n (f : A -> json) o, In n didcomm_fields -> rest_of didcomm_fields (sopt n f o) = []).
    { intros A n f [a|] Hn; [|reflexivity]. apply rest_of_none. constructor; [exact Hn|constructor]. }
    assert (Hv : forall A n (f : A -> json) o, In n didcomm_fields -> rest_of didcomm_fields (svec n f o) = []).
    { intros A n f [|a l] Hn; [reflexivity|]. apply rest_of_none. constructor; [exact Hn|constructor]. }
    rewrite !Hs by (simpl; tauto). rewrite !Hv by (simpl; tauto).
    rewrite (rest_of_all _ (smap _)) by (rewrite keys_smap; exact Hfr). reflexivity.
Qed.

(** ** Recipients and attachments *)

Definition rc_ok (r : recipient) : Prop := jwk_ok (rc_header r).
Definition re_recipient (R : drt) (r : recipient) : recipient :=
  {| rc_header := re_jwk R (rc_header r); rc_encrypted_key := rc_encrypted_key r |}.

Lemma de_recipient_entries : forall {bf} R r, rc_ok r ->
  de_recipient_from R bf (member (recipient_entries r)) = Some (re_recipient R r).
Proof.
  intros bf R r H. unfold de_recipient_from.
  change (member (recipient_entries r) "header") with (Some (Got (ser_jwk (rc_header r)))).
  cbn [dreq]. rewrite de_jwk_ser by assumption. reflexivity.
Qed.
Lemma de_recipient_ser : forall R r, rc_ok r -> de_recipient R (ser_recipient r) = Some (re_recipient R r).
Proof. intros R r H. now apply de_recipient_entries. Qed.

Lemma de_attachment_data_ser : forall a, de_attachment_data (ser_attachment_data a) = Some a.
Proof.
  intros [w h l b s]. unfold de_attachment_data, ser_attachment_data, view. cbn [obind ad_jws ad_hash ad_links ad_base64 ad_json].
  set (es := (_ ++ _)%list).
  rewrite (member_opt _ es "jws" jstr w), dopt_str; [cbn [obind]|unfold es; occ_tac; now rewrite ?app_nil_r].
  rewrite (member_opt _ es "hash" jstr h), dopt_str; [cbn [obind]|unfold es; occ_tac; now rewrite ?app_nil_r].
  assert (Hl : ddef [] (de_vec de_string) (member es "links") = Some l).
  { assert (Ho : occ "links" es = vlist jstr l) by (unfold es; occ_tac; now rewrite ?app_nil_r).
    unfold member. rewrite Ho. destruct l as [|x l]; [reflexivity|]. cbn [vlist]. apply de_vec_str. }
  rewrite Hl. cbn [obind].
  rewrite (member_opt _ es "base64" jstr b), dopt_str; [cbn [obind]|unfold es; occ_tac; now rewrite ?app_nil_r].
  rewrite (member_opt _ es "json" jstr s), dopt_str; [reflexivity|unfold es; occ_tac; now rewrite ?app_nil_r].
Qed.

Definition at_ok (a : attachment) : Prop := onum_ok (at_byte_count a).
Lemma de_attachment_ser : forall a, at_ok a -> de_attachment (ser_attachment a) = Some a.
Proof.
  intros a Ha. unfold de_attachment, ser_attachment, view. cbn [obind].
  set (es := (_ ++ _)%list).
  rewrite (member_opt _ es "id" jstr (at_id a)), dopt_str; [cbn [obind]|unfold es; occ_tac; now rewrite ?app_nil_r].
  rewrite (member_opt _ es "description" jstr (at_description a)), dopt_str; [cbn [obind]|unfold es; occ_tac; now rewrite ?app_nil_r].
  rewrite (member_opt _ es "filename" jstr (at_filename a)), dopt_str; [cbn [obind]|unfold es; occ_tac; now rewrite ?app_nil_r].
  rewrite (member_opt _ es "media_type" jstr (at_media_type a)), dopt_str; [cbn [obind]|unfold es; occ_tac; now rewrite ?app_nil_r].
  rewrite (member_opt _ es "format" jstr (at_format a)), dopt_str; [cbn [obind]|unfold es; occ_tac; now rewrite ?app_nil_r].
  rewrite (member_opt _ es "lastmod_time" jstr (at_lastmod a)), dopt_str; [cbn [obind]|unfold es; occ_tac; now rewrite ?app_nil_r].
  rewrite (member_opt _ es "byte_count" jnat (at_byte_count a)), dopt_u64; [cbn [obind]|exact Ha|unfold es; occ_tac; now rewrite ?app_nil_r].
  rewrite (member_got es "data" (ser_attachment_data (at_data a))); [|unfold es; occ_tac; reflexivity].
  cbn [dreq]. rewrite de_attachment_data_ser. cbn [obind]. now destruct a.
Qed.

(** ** Well-formedness and nesting of what is serialised *)

Definition ents_all (P : json -> Prop) (es : list (string * json)) : Prop := Forall (fun e => P (snd e)) es.
Lemma ents_app : forall P a b, ents_all P (a ++ b)%list <-> ents_all P a /\ ents_all P b.
Proof. intros. apply Forall_app. Qed.
Lemma ents_cons : forall P k v b, ents_all P ((k, v) :: b) <-> P v /\ ents_all P b.
Proof. intros. split; [intros H; inversion H; now split|intros [H1 H2]; now constructor]. Qed.
Lemma ents_nil : forall P, ents_all P [] <-> True.
Proof. intros. split; [trivial|constructor]. Qed.
Lemma ents_sopt : forall A (P : json -> Prop) k (f : A -> json) o, ents_all P (sopt k f o) <-> (forall a, o = Some a -> P (f a)).
Proof.
  intros A P k f [a|]; cbn [sopt]; [rewrite ents_cons, ents_nil|rewrite ents_nil].
  - split; [intros [H _] a' E; now injection E as <-|intros H; split; [now apply H|exact I]].
  - split; [intros _ a E; discriminate|trivial].
Qed.
Lemma ents_svec : forall A (P : json -> Prop) k (f : A -> json) l, (l <> [] -> P (JArr (map f l))) -> ents_all P (svec k f l).
Proof. intros A P k f [|a l] H; cbn [svec]; [constructor|]. rewrite ents_cons, ents_nil. split; [now apply H|exact I]. Qed.
Lemma ents_smap : forall (P : json -> Prop) m, (forall s, P (jstr s)) -> ents_all P (smap m).
Proof. intros P m H. unfold ents_all, smap. apply Forall_map. apply Forall_forall. intros [k v] _. apply H. Qed.

Lemma wf_jstr : forall s, wf_json (jstr s).
Proof. reflexivity. Qed.
Lemma wf_jnat : forall n, wf_json (jnat n).
Proof. intros n. apply numtok_dec. Qed.
Lemma wf_obj_ents : forall es, wf_json (JObj es) <-> ents_all wf_json es.
Proof. intros es. apply wf_obj. Qed.
Lemma wf_arr_map : forall A (f : A -> json) l, (forall a, In a l -> wf_json (f a)) -> wf_json (JArr (map f l)).
Proof.
  intros A f l H. apply wf_arr. apply Forall_map. apply Forall_forall. exact H.
Qed.

Ltac wf_tac :=
  rewrite ?ents_app, ?ents_cons, ?ents_nil, ?ents_sopt;
  repeat split; intros; try apply wf_jstr; try apply wf_jnat;
  try (apply ents_smap; apply wf_jstr);
  try (apply ents_svec; intros _; apply wf_arr_map; intros; apply wf_jstr).

Lemma wf_ser_epk : forall e, wf_json (ser_epk e).
Proof. intros e. unfold ser_epk. apply wf_obj_ents. wf_tac. Qed.
Lemma wf_ser_jwk : forall k, wf_json (ser_jwk k).
Proof.
  intros k. unfold ser_jwk. apply wf_obj_ents. wf_tac.
  - apply wf_arr_map. intros. apply wf_jstr.
  - apply wf_ser_epk.
Qed.
Lemma wf_jwm_entries : forall h, ents_all wf_json (jwm_entries h).
Proof. intros h. unfold jwm_entries. wf_tac; apply wf_ser_jwk. Qed.
Lemma wf_ser_jwm : forall h, wf_json (ser_jwm h).
Proof. intros h. apply wf_obj_ents. apply wf_jwm_entries. Qed.
Lemma wf_ser_prior : forall p, wf_json (ser_prior p).
Proof. intros [[s|] i]; apply wf_obj_ents; wf_tac. Qed.
Lemma wf_ser_thread : forall t, wf_json (ser_thread t).
Proof.
  intros t. unfold ser_thread. apply wf_obj_ents. wf_tac. apply wf_obj. apply Forall_map. apply Forall_forall.
  intros x _. apply wf_jnat.
Qed.
Lemma wf_didcomm_entries : forall d, ents_all wf_json (didcomm_entries d).
Proof.
  intros d. unfold didcomm_entries. wf_tac.
  - destruct (dh_from d); [apply wf_jstr|exact I].
  - apply wf_ser_prior.
  - apply wf_ser_thread.
Qed.
Lemma wf_ser_recipient : forall r, wf_json (ser_recipient r).
Proof. intros r. unfold ser_recipient, recipient_entries. apply wf_obj_ents. wf_tac. apply wf_ser_jwk. Qed.
Lemma wf_ser_attachment_data : forall a, wf_json (ser_attachment_data a).
Proof. intros a. unfold ser_attachment_data. apply wf_obj_ents. wf_tac. Qed.
Lemma wf_ser_attachment : forall a, wf_json (ser_attachment a).
Proof. intros a. unfold ser_attachment. apply wf_obj_ents. wf_tac. apply wf_ser_attachment_data. Qed.
Lemma wf_ser_message : forall m, wf_json (m_body m) -> wf_json (ser_message m).
Proof.
  intros m Hb. unfold ser_message. apply wf_obj_ents. rewrite !ents_app, !ents_cons, !ents_nil, !ents_sopt.
  repeat split; try assumption.
  - apply wf_jwm_entries.
  - apply wf_didcomm_entries.
  - intros l _. apply wf_arr_map. intros. apply wf_ser_recipient.
  - apply ents_svec. intros _. apply wf_arr_map. intros. apply wf_ser_attachment.
Qed.
Lemma wf_ser_jwe : forall e, wf_json (ser_jwe e).
Proof.
  intros e. unfold ser_jwe. apply wf_obj_ents. wf_tac.
  - apply wf_ser_jwm.
  - destruct (je_recipient e); [|constructor]. apply wf_obj_ents. apply wf_ser_recipient.
  - apply wf_arr_map. intros. apply wf_ser_recipient.
Qed.
Lemma wf_signature_entries : forall s, ents_all wf_json (signature_entries s).
Proof. intros s. unfold signature_entries. wf_tac. apply wf_ser_jwm. Qed.
Lemma wf_ser_signature : forall s, wf_json (ser_signature s).
Proof. intros s. apply wf_obj_ents. apply wf_signature_entries. Qed.
Lemma wf_ser_jws : forall s, wf_json (ser_jws s).
Proof.
  intros s. unfold ser_jws. apply wf_obj_ents. wf_tac.
  - destruct (js_signature s); [|constructor]. apply wf_signature_entries.
  - apply wf_arr_map. intros. apply wf_ser_signature.
Qed.

(** Small trees can be buffered. *)
Definition shallow (R : drt) (d : nat) (j : json) : Prop := depth j <= d /\ nums_ok R j = true.
Lemma shallow_jstr : forall R s d, shallow R d (jstr s).
Proof. intros. split; [simpl; lia|reflexivity]. Qed.
Lemma shallow_jnat : forall R d n, (n <= u64_max)%N -> shallow R d (jnat n).
Proof. intros R d n H. split; [simpl; lia|]. unfold jnat, nums_ok. now rewrite vnum_dec. Qed.
Lemma shallow_null : forall R d, shallow R d JNull.
Proof. intros. split; [simpl; lia|reflexivity]. Qed.
Lemma shallow_obj : forall R d es, ents_all (shallow R d) es -> shallow R (S d) (JObj es).
Proof.
  intros R d es H. split.
  - apply depth_obj_le. eapply Forall_impl; [|exact H]. intros a Ha. apply Ha.
  - cbn [nums_ok]. apply forallb_forall. unfold ents_all in H. rewrite Forall_forall in H. intros x Hx. now apply H.
Qed.
Lemma shallow_arr_map : forall A R d (f : A -> json) l, (forall a, In a l -> shallow R d (f a)) -> shallow R (S d) (JArr (map f l)).
Proof.
  intros A R d f l H. split.
  - apply depth_arr_le. apply Forall_map. apply Forall_forall. intros x Hx. now apply H.
  - cbn [nums_ok]. apply forallb_forall. intros x Hx. apply in_map_iff in Hx. destruct Hx as [a [<- Ha]]. now apply H.
Qed.
Lemma shallow_le : forall R d d' j, d <= d' -> shallow R d j -> shallow R d' j.
Proof. intros R d d' j Hd [H1 H2]. split; [lia|assumption]. Qed.
Lemma shallow_buf : forall R d d' j, d <= d' -> shallow R d j -> buf_ok R d' j = true.
Proof. intros R d d' j Hd [H1 H2]. unfold buf_ok. rewrite H2, andb_true_r. apply Nat.leb_le. lia. Qed.

Ltac sh_tac :=
  rewrite ?ents_app, ?ents_cons, ?ents_nil, ?ents_sopt;
  repeat match goal with |- _ /\ _ => split | |- True => exact I end; intros; try apply shallow_jstr;
  try (apply ents_smap; intros; apply shallow_jstr);
  try (apply ents_svec; intros _; apply shallow_arr_map; intros; apply shallow_jstr);
  try (apply shallow_arr_map; intros; apply shallow_jstr).

Lemma shallow_epk : forall R e, shallow R 1 (ser_epk e).
Proof. intros R e. apply shallow_obj. sh_tac. Qed.
Lemma shallow_jwk : forall R k, shallow R 2 (ser_jwk k).
Proof. intros R k. apply shallow_obj. sh_tac. apply shallow_epk. Qed.
Lemma shallow_jwm_entries : forall R h, ents_all (shallow R 2) (jwm_entries h).
Proof. intros R h. unfold jwm_entries. sh_tac; apply shallow_jwk. Qed.
Lemma shallow_jwm : forall R h, shallow R 3 (ser_jwm h).
Proof. intros R h. apply shallow_obj. apply shallow_jwm_entries. Qed.
Lemma shallow_recipient_entries : forall R r, ents_all (shallow R 2) (recipient_entries r).
Proof. intros R r. unfold recipient_entries. sh_tac. apply shallow_jwk. Qed.
Lemma shallow_thread : forall R t, thread_ok t -> shallow R 2 (ser_thread t).
Proof.
  intros R t [H1 H2]. apply shallow_obj. sh_tac.
  - apply shallow_jnat. now apply H1.
  - destruct (H2 a H) as [_ Hb]. apply shallow_obj. unfold ents_all. apply Forall_map. rewrite Forall_forall in *.
    intros x Hx. apply shallow_jnat. now apply Hb.
Qed.
Lemma shallow_didcomm_entries : forall R d, did_ok d -> ents_all (shallow R 2) (didcomm_entries d).
Proof.
  intros R d (_ & _ & Hc & Hx & Ht). unfold didcomm_entries. sh_tac.
  - destruct (dh_from d); [apply shallow_jstr|apply shallow_null].
  - apply shallow_jnat. now apply Hc.
  - apply shallow_jnat. now apply Hx.
  - apply (shallow_le R 1); [lia|]. destruct a as [[s|] i]; apply shallow_obj; sh_tac. apply shallow_null.
  - apply shallow_thread. now apply Ht.
Qed.
Lemma shallow_signature_entries : forall R s, ents_all (shallow R 3) (signature_entries s).
Proof. intros R s. unfold signature_entries. sh_tac. apply shallow_jwm. Qed.

Lemma ents_buf : forall R d d' es, d <= d' -> ents_all (shallow R d) es -> forallb (fun e => buf_ok R d' (snd e)) es = true.
Proof.
  intros R d d' es Hd H. apply forallb_forall. unfold ents_all in H. rewrite Forall_forall in H. intros x Hx.
  eapply shallow_buf; [exact Hd|]. now apply H.
Qed.

(** ** Keys of entry lists *)

Lemma keys_sopt : forall A n (f : A -> json) o, Forall (fun k => k = n) (keys (sopt n f o)).
Proof. intros A n f [a|]; simpl; repeat constructor. Qed.
Lemma keys_svec : forall A n (f : A -> json) o, Forall (fun k => k = n) (keys (svec n f o)).
Proof. intros A n f [|a l]; simpl; repeat constructor. Qed.

Lemma keys_jwm_entries : forall h, Forall (fun k => In k jwm_fields) (keys (jwm_entries h)).
Proof.
  intros h. unfold jwm_entries. rewrite !keys_app, !Forall_app.
  repeat split; try (eapply Forall_impl; [|apply keys_sopt]; intros a ->; simpl; tauto).
  simpl. repeat constructor.
Qed.
Lemma keys_didcomm_entries : forall d, Forall (fun k => In k didcomm_fields \/ In k (keys (dh_other d))) (keys (didcomm_entries d)).
Proof.
  intros d. unfold didcomm_entries. rewrite !keys_app, !Forall_app.
  repeat split; try (eapply Forall_impl; [|apply keys_sopt]; intros a ->; left; simpl; tauto);
    try (eapply Forall_impl; [|apply keys_svec]; intros a ->; left; simpl; tauto).
  - constructor; [left; simpl; tauto|constructor].
  - constructor; [left; simpl; tauto|constructor].
  - constructor; [left; simpl; tauto|constructor].
  - rewrite keys_smap. apply Forall_forall. intros x Hx. now right.
Qed.

(** ** Messages *)

(** Names that a custom header of a message must avoid to survive. *)
Definition msg_reserved : list string := (message_fields ++ jwm_fields ++ didcomm_fields)%list.

Definition msg_ok (m : message) : Prop :=
  jwm_ok (m_jwm m) /\ did_ok (m_did m) /\ fresh_keys (dh_other (m_did m)) msg_reserved /\
  (forall l, m_recipients m = Some l -> Forall rc_ok l) /\
  Forall at_ok (m_attachments m).

Definition re_message (R : drt) (m : message) : message :=
  {| m_jwm := re_jwm R (m_jwm m); m_did := re_did R (m_did m);
     m_recipients := option_map (map (re_recipient R)) (m_recipients m); m_body := m_body m;
     m_flat_jwe := false; m_flat_jws := false; m_attachments := m_attachments m |}.

Lemma fresh_incl : forall V (m : list (string * V)) a b, incl a b -> fresh_keys m b -> fresh_keys m a.
Proof.
  intros V m a b Hi H. unfold fresh_keys in *. eapply Forall_impl; [|exact H]. intros k Hk Hin. apply Hk. now apply Hi.
Qed.

Lemma keys_all_fresh : forall es P ns k, Forall P (keys es) -> (forall x, P x -> ~ In x ns) -> In k ns -> occ k es = [].
Proof.
  intros es P ns k H HP Hk. apply occ_fresh. intros Hin. rewrite Forall_forall in H. now apply (HP k (H k Hin)).
Qed.

(** The body of a serialised message is the member called body. *)
Lemma ser_message_body : forall m, msg_ok m -> exists es, ser_message m = JObj es /\ member es "body" = Some (Got (m_body m)).
Proof.
  intros m (Hj & Hd & Hfr & Hrc & Hat). unfold ser_message. set (es := (_ ++ _)%list). exists es. split; [reflexivity|].
  assert (Hjk := keys_jwm_entries (m_jwm m)). assert (Hdk := keys_didcomm_entries (m_did m)).
  apply member_got. unfold es. occ_tac.
  replace (occ "body" (jwm_entries (m_jwm m))) with (@nil json).
  2:{ symmetry. apply occ_fresh. intros Hin. rewrite Forall_forall in Hjk. specialize (Hjk _ Hin). simpl in Hjk. intuition discriminate. }
  replace (occ "body" (didcomm_entries (m_did m))) with (@nil json).
  2:{ symmetry. apply occ_fresh. intros Hin. rewrite Forall_forall in Hdk. destruct (Hdk _ Hin) as [H|H]; [simpl in H; intuition discriminate|].
      unfold fresh_keys in Hfr. rewrite Forall_forall in Hfr. apply (Hfr _ H). simpl. tauto. }
  reflexivity.
Qed.
(** The object of a message, with the members that belong to each part. *)
Lemma de_message_ser : forall R m, msg_ok m -> dh_to (m_did m) <> [] -> canon R (m_body m) ->
  depth (m_body m) <= max_depth - 1 ->
  de_message R (ser_message m) = Some (re_message R m).
Proof.
  intros R m (Hj & Hd & Hfr & Hrc & Hat) Hto Hb Hdep.
  unfold ser_message, de_message. set (es := (_ ++ _)%list).
  assert (Hjk := keys_jwm_entries (m_jwm m)). assert (Hdk := keys_didcomm_entries (m_did m)).
  assert (Hfm : fresh_keys (dh_other (m_did m)) message_fields) by (eapply fresh_incl; [|exact Hfr]; intros x Hx; apply in_or_app; now left).
  assert (Hfj : fresh_keys (dh_other (m_did m)) jwm_fields) by (eapply fresh_incl; [|exact Hfr]; intros x Hx; apply in_or_app; right; apply in_or_app; now left).
  assert (Hjocc : forall k, ~ In k jwm_fields -> occ k (jwm_entries (m_jwm m)) = []).
  { intros k Hk. apply occ_fresh. intros Hin. rewrite Forall_forall in Hjk. now apply Hk, Hjk. }
  assert (Hdocc : forall k, ~ In k didcomm_fields -> ~ In k (keys (dh_other (m_did m))) -> occ k (didcomm_entries (m_did m)) = []).
  { intros k Hk1 Hk2. apply occ_fresh. intros Hin. rewrite Forall_forall in Hdk. destruct (Hdk k Hin); contradiction. }
  assert (Hfk : forall k ns, fresh_keys (dh_other (m_did m)) ns -> In k ns -> ~ In k (keys (dh_other (m_did m)))).
  { intros k ns Hns Hk Hin. unfold fresh_keys in Hns. rewrite Forall_forall in Hns. now apply (Hns k Hin). }
  assert (Hown : forall k, In k message_fields -> occ k (jwm_entries (m_jwm m)) = [] /\ occ k (didcomm_entries (m_did m)) = []).
  { intros k Hk. assert (Hk1 : ~ In k jwm_fields) by (simpl in Hk; repeat destruct Hk as [<-|Hk]; try contradiction; not_in).
    assert (Hk2 : ~ In k didcomm_fields) by (simpl in Hk; repeat destruct Hk as [<-|Hk]; try contradiction; not_in).
    split; [now apply Hjocc|]. apply Hdocc; [assumption|]. now apply (Hfk k message_fields). }
  (* own fields *)
  rewrite (member_opt _ es "recipients" (fun l => JArr (map ser_recipient l)) (m_recipients m)).
  2:{ unfold es. occ_tac. destruct (Hown "recipients") as [-> ->]; [simpl; tauto|]. cbn [app]. now rewrite ?app_nil_r. }
  rewrite (dopt_ofld _ _ _ _ (map (re_recipient R))).
  2:{ intros l El. split; [discriminate|]. apply de_vec_map. intros r Hr. apply de_recipient_ser.
      specialize (Hrc l El). rewrite Forall_forall in Hrc. now apply Hrc. }
  cbn [obind].
  rewrite (member_got es "body" (m_body m)).
  2:{ unfold es. occ_tac. destruct (Hown "body") as [-> ->]; [simpl; tauto|]. reflexivity. }
  unfold dreq at 1. rewrite value_of_canon by assumption. cbn [obind].
  assert (Hatt : ddef [] (de_vec de_attachment) (member es "attachments") = Some (m_attachments m)).
  { assert (Ho : occ "attachments" es = vlist ser_attachment (m_attachments m)).
    { unfold es. occ_tac. destruct (Hown "attachments") as [-> ->]; [simpl; tauto|]. reflexivity. }
    unfold member. rewrite Ho. destruct (m_attachments m) as [|a l]; [reflexivity|]. cbn [vlist ddef].
    rewrite (de_vec_map _ _ _ _ (fun x => x)); [now rewrite map_id|].
    intros x Hx. apply de_attachment_ser. rewrite Forall_forall in Hat. now apply Hat. }
  rewrite Hatt. cbn [obind].
  (* the rest *)
  assert (Hrest : rest_of message_fields es = (jwm_entries (m_jwm m) ++ didcomm_entries (m_did m))%list).
  { unfold es. rewrite !rest_of_app.
    rewrite (rest_of_all _ (jwm_entries _)).
    2:{ eapply Forall_impl; [|exact Hjk]. intros k Hk Hin. simpl in Hin.
        repeat destruct Hin as [<-|Hin]; try contradiction; revert Hk; not_in. }
    rewrite (rest_of_all _ (didcomm_entries _)).
    2:{ eapply Forall_impl; [|exact Hdk]. intros k [Hk|Hk] Hin.
        - simpl in Hin. repeat destruct Hin as [<-|Hin]; try contradiction; revert Hk; not_in.
        - now apply (Hfk k message_fields). }
    rewrite (rest_of_none _ (sopt _ _ _)) by (eapply Forall_impl; [|apply keys_sopt]; intros a ->; simpl; tauto).
    rewrite (rest_of_none _ (svec _ _ _)) by (eapply Forall_impl; [|apply keys_svec]; intros a ->; simpl; tauto).
    rewrite (rest_of_none _ [("body", m_body m)]) by (repeat (constructor; [cbn; tauto|]); constructor).
    cbn [app]. now rewrite ?app_nil_r. }
  rewrite Hrest.
  rewrite (ents_buf R 2).
  2:{ unfold max_depth. lia. }
  2:{ apply ents_app. split; [apply shallow_jwm_entries|now apply shallow_didcomm_entries]. }
  pose proof (de_jwm_entries (bf := true) R (m_jwm m) [] (didcomm_entries (m_did m)) Hj ltac:(reflexivity)) as Hjwm. cbn [app] in Hjwm.
  rewrite Hjwm.
  2:{ intros k Hk. apply Hdocc; [|now apply (Hfk k jwm_fields)].
      simpl in Hk; repeat destruct Hk as [<-|Hk]; try contradiction; not_in. }
  cbn [obind]. rewrite rest_of_app.
  rewrite (rest_of_none _ (jwm_entries _)) by assumption.
  rewrite (rest_of_all _ (didcomm_entries _)).
  2:{ eapply Forall_impl; [|exact Hdk]. intros k [Hk|Hk] Hin.
      - simpl in Hin. repeat destruct Hin as [<-|Hin]; try contradiction; revert Hk; not_in.
      - now apply (Hfk k jwm_fields). }
  cbn [app]. rewrite de_didcomm_entries by assumption. cbn [obind]. reflexivity.
Qed.

(** ** JWE *)

Lemma de_protected_header : forall R h, jwm_ok h -> jutf8 (ser_jwm h) ->
  de_protected R (Some (Got (jstr (header_b64 h)))) = Some (Some (re_jwm R h)).
Proof.
  intros R h Hh Hu. unfold de_protected, header_b64. cbn [ddef jstr de_string option_map].
  rewrite b64_decode_encode. cbn [obind]. rewrite parse_slice_print; [|apply wf_ser_jwm|exact Hu]. cbn [obind dopt].
  rewrite de_jwm_ser by assumption. reflexivity.
Qed.
Lemma de_protected_opt : forall R o, (forall h, o = Some h -> jwm_ok h /\ jutf8 (ser_jwm h)) ->
  de_protected R (ofld (fun h => jstr (header_b64 h)) o) = Some (option_map (re_jwm R) o).
Proof.
  intros R [h|] H; [|reflexivity]. destruct (H h eq_refl). now apply de_protected_header.
Qed.

Definition ojwm_ok (o : option jwm_header) : Prop := forall h, o = Some h -> jwm_ok h.
Definition ojwm_utf8 (o : option jwm_header) : Prop := forall h, o = Some h -> jutf8 (ser_jwm h).
Definition jwe_ok (e : jwe) : Prop :=
  ojwm_ok (je_protected e) /\ ojwm_utf8 (je_protected e) /\ ojwm_ok (je_unprotected e) /\
  (forall r, je_recipient e = Some r -> rc_ok r) /\ (forall l, je_recipients e = Some l -> Forall rc_ok l).
Definition re_jwe (R : drt) (e : jwe) : jwe :=
  {| je_protected := option_map (re_jwm R) (je_protected e); je_unprotected := option_map (re_jwm R) (je_unprotected e);
     je_recipient := option_map (re_recipient R) (je_recipient e);
     je_recipients := option_map (map (re_recipient R)) (je_recipients e);
     je_ciphertext := je_ciphertext e; je_iv := je_iv e; je_tag := je_tag e |}.

Definition orecipient_entries (o : option recipient) : list (string * json) :=
  match o with Some r => recipient_entries r | None => [] end.

Lemma de_jwe_ser : forall R e, jwe_ok e -> de_jwe R (ser_jwe e) = Some (re_jwe R e).
Proof.
  intros R e (Hp & Hpu & Hu & Hr & Hrs). unfold ser_jwe, de_jwe.
  change (match je_recipient e with Some r => recipient_entries r | None => [] end) with (orecipient_entries (je_recipient e)).
  set (es := (_ ++ _)%list).
  assert (Hrk : Forall (fun k => In k recipient_fields) (keys (orecipient_entries (je_recipient e)))).
  { destruct (je_recipient e); cbn; repeat (constructor; [cbn; tauto|]); constructor. }
  assert (Hro : forall k, In k jwe_fields -> occ k (orecipient_entries (je_recipient e)) = []).
  { intros k Hk. eapply keys_all_fresh; [exact Hrk| |exact Hk]. intros x Hx. simpl in Hx.
    repeat destruct Hx as [<-|Hx]; try contradiction; not_in. }
  rewrite (member_opt _ es "protected" (fun h => jstr (header_b64 h)) (je_protected e)).
  2:{ unfold es. occ_tac. rewrite Hro by (simpl; tauto). now rewrite ?app_nil_r. }
  rewrite de_protected_opt by (intros h Eh; split; [now apply Hp|now apply Hpu]). cbn [obind].
  rewrite (member_opt _ es "unprotected" ser_jwm (je_unprotected e)).
  2:{ unfold es. occ_tac. rewrite Hro by (simpl; tauto). now rewrite ?app_nil_r. }
  rewrite (dopt_ofld _ _ _ _ (re_jwm R)) by (intros h Eh; split; [discriminate|]; apply de_jwm_ser; now apply Hu). cbn [obind].
  rewrite (member_opt _ es "recipients" (fun l => JArr (map ser_recipient l)) (je_recipients e)).
  2:{ unfold es. occ_tac. rewrite Hro by (simpl; tauto). now rewrite ?app_nil_r. }
  rewrite (dopt_ofld _ _ _ _ (map (re_recipient R))).
  2:{ intros l El. split; [discriminate|]. apply de_vec_map. intros r Hin. apply de_recipient_ser.
      specialize (Hrs l El). rewrite Forall_forall in Hrs. now apply Hrs. }
  cbn [obind].
  rewrite (member_got es "ciphertext" (jstr (je_ciphertext e))).
  2:{ unfold es. occ_tac. rewrite Hro by (simpl; tauto). reflexivity. }
  cbn [dreq de_string jstr obind].
  rewrite (member_got es "iv" (jstr (je_iv e))).
  2:{ unfold es. occ_tac. rewrite Hro by (simpl; tauto). reflexivity. }
  cbn [dreq de_string jstr obind].
  rewrite (member_opt _ es "tag" jstr (je_tag e)), dopt_str.
  2:{ unfold es. occ_tac. rewrite Hro by (simpl; tauto). now rewrite ?app_nil_r. }
  cbn [obind].
  assert (Hrest : rest_of jwe_fields es = orecipient_entries (je_recipient e)).
  { unfold es. rewrite !rest_of_app.
    assert (Hs : forall A n (f : A -> json) o, In n jwe_fields -> rest_of jwe_fields (sopt n f o) = []).
    { intros A n f o Hn. apply rest_of_none. eapply Forall_impl; [|apply keys_sopt]. now intros a ->. }
    rewrite !Hs by (simpl; tauto).
    rewrite (rest_of_all _ (orecipient_entries _)).
    2:{ eapply Forall_impl; [|exact Hrk]. intros x Hx. simpl in Hx.
        repeat destruct Hx as [<-|Hx]; try contradiction; not_in. }
    rewrite rest_of_none by (repeat (constructor; [cbn; tauto|]); constructor). cbn [app]. now rewrite app_nil_r. }
  rewrite Hrest.
  rewrite (ents_buf R 2).
  2:{ unfold max_depth. lia. }
  2:{ destruct (je_recipient e); [apply shallow_recipient_entries|constructor]. }
  unfold re_jwe. do 2 f_equal.
  destruct (je_recipient e) as [r|] eqn:Er; cbn [orecipient_entries option_map].
  - apply de_recipient_entries. now apply Hr.
  - reflexivity.
Qed.

(** ** JWS *)

(** No character of the base64url alphabet is escaped. *)
Lemma b64_no_escape : forall s, needs_escape (b64_encode s) = false.
Proof.
  intros s. assert (H : forall t, sall b64_char t = true -> needs_escape t = false).
  { induction t as [|c t IH]; intros Ht; [reflexivity|]. cbn [sall needs_escape] in *.
    apply andb_true_iff in Ht. destruct Ht as [Hc Ht]. rewrite (IH Ht), orb_false_r.
    pose proof (ascii_sweep (fun c => negb (b64_char c) || negb (esc_needed c)) ltac:(vm_compute; reflexivity) c) as Hs.
    cbv beta in Hs. rewrite Hc in Hs. simpl in Hs. now apply negb_true_iff in Hs. }
  apply H. apply b64_encode_alphabet.
Qed.

Definition sig_ok (s : signature) : Prop :=
  ojwm_ok (sg_protected s) /\ ojwm_utf8 (sg_protected s) /\ ojwm_ok (sg_header s).
Definition re_signature (R : drt) (s : signature) : signature :=
  {| sg_protected := option_map (re_jwm R) (sg_protected s); sg_header := option_map (re_jwm R) (sg_header s);
     sg_signature := sg_signature s |}.

Lemma de_signature_entries : forall {bf} R s, sig_ok s ->
  de_signature_from R bf (member (signature_entries s)) = Some (re_signature R s).
Proof.
  intros bf R s (Hp & Hpu & Hh). unfold de_signature_from. set (es := signature_entries s).
  rewrite (member_opt _ es "protected" (fun h => jstr (header_b64 h)) (sg_protected s)).
  2:{ unfold es, signature_entries. occ_tac. now rewrite ?app_nil_r. }
  rewrite de_protected_opt by (intros h Eh; split; [now apply Hp|now apply Hpu]). cbn [obind].
  rewrite (member_opt _ es "header" ser_jwm (sg_header s)).
  2:{ unfold es, signature_entries. occ_tac. now rewrite ?app_nil_r. }
  rewrite (dopt_ofld _ _ _ _ (re_jwm R)) by (intros h Eh; split; [discriminate|]; apply de_jwm_ser; now apply Hh). cbn [obind].
  rewrite (member_got es "signature" (jstr (b64_encode (sg_signature s)))).
  2:{ unfold es, signature_entries. occ_tac. reflexivity. }
  cbn [ddef]. unfold jstr. rewrite b64_no_escape. cbn [de_b64_buffer]. rewrite b64_decode_encode. reflexivity.
Qed.
Lemma de_signature_ser : forall R s, sig_ok s -> de_signature R (ser_signature s) = Some (re_signature R s).
Proof. intros R s H. now apply de_signature_entries. Qed.

Definition jws_ok (s : jws) : Prop :=
  (forall g, js_signature s = Some g -> sig_ok g) /\ (forall l, js_signatures s = Some l -> Forall sig_ok l).
(** A missing flattened signature is read back as an empty one: all its fields are optional or have defaults. *)
Definition empty_signature : signature := {| sg_protected := None; sg_header := None; sg_signature := "" |}.
Definition re_jws (R : drt) (s : jws) : jws :=
  {| js_payload := js_payload s;
     js_signature := Some (match js_signature s with Some g => re_signature R g | None => empty_signature end);
     js_signatures := option_map (map (re_signature R)) (js_signatures s) |}.

Definition osignature_entries (o : option signature) : list (string * json) :=
  match o with Some r => signature_entries r | None => [] end.

Lemma de_jws_ser : forall R s, jws_ok s -> de_jws R (ser_jws s) = Some (re_jws R s).
Proof.
  intros R s (Hg & Hs). unfold ser_jws, de_jws.
  change (match js_signature s with Some r => signature_entries r | None => [] end) with (osignature_entries (js_signature s)).
  set (es := (_ ++ _)%list).
  assert (Hrk : Forall (fun k => In k signature_fields) (keys (osignature_entries (js_signature s)))).
  { destruct (js_signature s) as [g|]; [|constructor]. cbn [osignature_entries]. unfold signature_entries.
    rewrite !keys_app, !Forall_app. repeat split; try (eapply Forall_impl; [|apply keys_sopt]; intros a ->; simpl; tauto).
    repeat (constructor; [cbn; tauto|]); constructor. }
  assert (Hro : forall k, In k jws_fields -> occ k (osignature_entries (js_signature s)) = []).
  { intros k Hk. eapply keys_all_fresh; [exact Hrk| |exact Hk]. intros x Hx. simpl in Hx.
    repeat destruct Hx as [<-|Hx]; try contradiction; not_in. }
  rewrite (member_got es "payload" (jstr (js_payload s))).
  2:{ unfold es. occ_tac. rewrite Hro by (simpl; tauto). reflexivity. }
  cbn [dreq de_string jstr obind].
  rewrite (member_opt _ es "signatures" (fun l => JArr (map ser_signature l)) (js_signatures s)).
  2:{ unfold es. occ_tac. rewrite Hro by (simpl; tauto). now rewrite ?app_nil_r. }
  rewrite (dopt_ofld _ _ _ _ (map (re_signature R))).
  2:{ intros l El. split; [discriminate|]. apply de_vec_map. intros r Hin. apply de_signature_ser.
      specialize (Hs l El). rewrite Forall_forall in Hs. now apply Hs. }
  cbn [obind].
  assert (Hrest : rest_of jws_fields es = osignature_entries (js_signature s)).
  { unfold es. rewrite !rest_of_app.
    rewrite (rest_of_none _ [("payload", _)]) by (repeat (constructor; [cbn; tauto|]); constructor).
    rewrite (rest_of_none _ (sopt _ _ _)) by (eapply Forall_impl; [|apply keys_sopt]; intros a ->; simpl; tauto).
    rewrite (rest_of_all _ (osignature_entries _)).
    2:{ eapply Forall_impl; [|exact Hrk]. intros x Hx. simpl in Hx.
        repeat destruct Hx as [<-|Hx]; try contradiction; not_in. }
    cbn [app]. now rewrite app_nil_r. }
  rewrite Hrest.
  rewrite (ents_buf R 3).
  2:{ unfold max_depth. lia. }
  2:{ destruct (js_signature s); [apply shallow_signature_entries|constructor]. }
  unfold re_jws. do 2 f_equal.
  destruct (js_signature s) as [g|] eqn:Eg; cbn [osignature_entries].
  - apply de_signature_entries. now apply Hg.
  - reflexivity.
Qed.
