(** When sealing panics: C83. *)

From Coq Require Import Ascii String Arith ZArith NArith List Bool Permutation Lia.
From Verif Require Import Bytes BytesFacts Base64 Utf8 Json JsonFacts Value Types Serde SerdeFacts
  Message Attach ChaCha Sha256 Envelope Spec SpecFacts DecodeFacts PlainFacts SetterFacts SpecText CryptoLaws Examples PropPlain
  SpecSign HeaderFacts SignFacts PropSign SpecSeal SealFacts SealFacts2 SealFacts3 PropSeal SpecOps PropSetters SpecRoute RouteFacts PropRoute PropOnion PropPeel PropReply PropFloat Aead AeadFacts AeadFacts2 PropAead Curve CurveFacts PropCurve.
Import ListNotations.
Local Open Scope nat_scope.
Local Open Scope string_scope.

(** ** C83 *)

(** A recipient for whom there is a key of at least 32 bytes; one for whom there is a shorter key. *)
Definition has_key (E : env) (dest : string) (given : option string) : Prop := exists key, known_key E dest given key /\ 32 <= String.length key.
Definition has_short_key (E : env) (dest : string) (given : option string) : Prop := exists key, known_key E dest given key /\ String.length key < 32.
(** The arguments pass the checks that [seal] makes, and the message names some algorithm. The first recipient without a sufficient key has one that is too short; if it is not the
    first recipient of all, the algorithm is one that wraps keys. *)
Definition meets_short_key (E : env) (m : message) (sk : string) (keys : option (list (option string))) : Prop :=
  String.length sk = 32 /\ (m_flat_jwe m = true -> List.length (dh_to (m_did m)) = 1) /\
  (forall l, keys = Some l -> List.length l = List.length (dh_to (m_did m))) /\
  exists alg k dest, jh_alg (m_jwm m) = Some alg /\ (0 < k -> In alg (map fst wrap_table)) /\ nth_error (dh_to (m_did m)) k = Some dest /\ has_short_key E dest (given_key keys k) /\
    forall j d, j < k -> nth_error (dh_to (m_did m)) j = Some d -> has_key E d (given_key keys j).

(** Wrapping the content key does not fail. *)
Definition wraps (E : env) : Prop :=
  forall a k n, usable a -> String.length k = 32 -> String.length n = wrap_len a -> exists c, wrap_enc E a k n "" seal_cek = Some c.

Lemma known_key_dec : forall E did pk, (exists key, known_key E did pk key) \/ forall sk, exists x, shared_for E sk did pk = Err x.
Proof.
  intros E did pk. unfold shared_for. destruct pk as [k|]; [left; exists k; now left|].
  destruct (resolve E did) as [doc|] eqn:ER; [|right; intros sk; eexists; reflexivity]. destruct (doc_key doc "X25519") as [k|] eqn:EK.
  - left. exists k. right. split; [reflexivity|]. now exists doc.
  - right. intros sk. cbn [oerr rbind]. rewrite EK. eexists. reflexivity.
Qed.
Lemma shared_short : forall E sk did pk key, known_key E did pk key -> 32 <= String.length sk -> String.length key < 32 -> shared_for E sk did pk = Panic.
Proof.
  intros E sk did pk key HK L1 L2. unfold shared_for.
  assert (HP : match pk with Some k => Ok k | None => let? doc := oerr (resolve E did) EDidResolveFailed in oerr (doc_key doc "X25519") EDidResolveFailed end = Ok key).
  { destruct HK as [->|[-> [doc [-> HD]]]]; [reflexivity|]. cbn [oerr rbind]. now rewrite HD. }
  rewrite HP. cbn [rbind]. rewrite (arr32_ok sk L1). cbn [rbind]. unfold arr32. destruct (Nat.ltb_spec (String.length key) 32); [reflexivity|lia].
Qed.
Lemma in_table_dec : forall alg, (exists a, usable a /\ alg = wrap_name a) \/ ~ In alg (map fst wrap_table).
Proof.
  intros alg. destruct (in_dec string_dec alg (map fst wrap_table)) as [H|H]; [left|now right]. destruct H as [<-|[<-|[]]]; [exists A256GCM|exists XC20P]; (split; [discriminate|reflexivity]).
Qed.
Lemma table_usable : forall a, usable a -> In (wrap_name a) (map fst wrap_table).
Proof. intros [| |] HU; [right; now left|now left|congruence]. Qed.
Lemma cek_usable : forall E rnd i m sk dest pk a, crypto_ok E -> wraps E -> rand_ok rnd -> String.length sk = 32 -> jh_alg (m_jwm m) = Some (wrap_name a) -> usable a ->
  has_key E dest pk -> exists r, encrypt_cek E (sr_rec rnd i) m sk dest seal_cek pk = Ok r.
Proof.
  intros E rnd i m sk dest pk a HC HT [A1 A2 A3] HL HA HU [key [HK H32]].
  destruct (HT a (kek_of (x_dh E (take 32 (rr_esk (sr_rec rnd i))) (take 32 key)) (x_dh E (take 32 sk) (take 32 key)) a)
              (rr_iv (sr_rec rnd i) (wrap_len a)) HU (kek_of_length _ _ _) (A2 _ _)) as [c HW].
  eexists. apply (encrypt_cek_total E (sr_rec rnd i) m sk dest seal_cek pk a key c); auto.
  - lia.
  - rewrite A1. lia.
  - eapply wrap_tag; eassumption.
Qed.
Lemma cek_ok_iff : forall E rnd i m sk dest pk, crypto_ok E -> wraps E -> rand_ok rnd -> String.length sk = 32 ->
  (exists r, encrypt_cek E (sr_rec rnd i) m sk dest seal_cek pk = Ok r) <-> (exists alg, jh_alg (m_jwm m) = Some alg /\ In alg (map fst wrap_table)) /\ has_key E dest pk.
Proof.
  intros E rnd i m sk dest pk HC HT HR HL. split.
  - intros [r H]. apply encrypt_cek_ok in H. destruct H as [a [key [c [HU [HA [HK [H32 _]]]]]]]. split; [exists (wrap_name a); split; [exact HA|now apply table_usable]|now exists key].
  - intros [[alg [HA HI]] HK]. destruct (in_table_dec alg) as [[a [HU ->]]|N]; [|contradiction]. exact (cek_usable E rnd i m sk dest pk a HC HT HR HL HA HU HK).
Qed.
Lemma cek_panic : forall E rnd i m sk dest pk, crypto_ok E -> wraps E -> rand_ok rnd -> String.length sk = 32 ->
  encrypt_cek E (sr_rec rnd i) m sk dest seal_cek pk = Panic <-> (exists alg, jh_alg (m_jwm m) = Some alg) /\ has_short_key E dest pk.
Proof.
  intros E rnd i m sk dest pk HC HT HR HL. pose proof HR as [A1 A2 A3]. split.
  - intros H. destruct (jh_alg (m_jwm m)) as [alg|] eqn:HA; [|unfold encrypt_cek in H; rewrite HA in H; discriminate]. split; [now exists alg|].
    destruct (known_key_dec E dest pk) as [[key HK]|HN].
    + destruct (Nat.lt_ge_cases (String.length key) 32) as [L|L]; [now exists key|exfalso]. destruct (in_table_dec alg) as [[a [HU ->]]|N].
      * destruct (cek_usable E rnd i m sk dest pk a HC HT HR HL HA HU) as [r HOk]; [now exists key|]. rewrite H in HOk. discriminate.
      * destruct (unknown_alg_cek E (sr_rec rnd i) m sk dest seal_cek pk alg HA N) as [x HX]; [lia|rewrite A1; lia| |rewrite H in HX; discriminate].
        intros key' HK'. now rewrite (known_key_fun _ _ _ _ _ HK' HK).
    + exfalso. unfold encrypt_cek in H. rewrite HA in H. cbn [oerr rbind] in H. destruct (HN (rr_esk (sr_rec rnd i))) as [x HX]. rewrite HX in H. discriminate.
  - intros [[alg HA] [key [HK L]]]. unfold encrypt_cek. rewrite HA. cbn [oerr rbind]. rewrite (shared_short E _ dest pk key HK); [reflexivity|rewrite A1; lia|exact L].
Qed.
Lemma loop_panic : forall E rnd m sk ds ps i, List.length ps = List.length ds ->
  seal_loop E rnd m sk i ds ps = Panic <->
  exists k dest, nth_error ds k = Some dest /\ encrypt_cek E (rnd (i + k)) m sk dest seal_cek (nth k ps None) = Panic /\
    forall j d, j < k -> nth_error ds j = Some d -> exists r, encrypt_cek E (rnd (i + j)) m sk d seal_cek (nth j ps None) = Ok r.
Proof.
  intros E rnd m sk. induction ds as [|d ds IH]; intros [|p ps] i HL; try discriminate; cbn [seal_loop].
  - split; [discriminate|]. intros [[|k] [dest [H _]]]; discriminate.
  - injection HL as HL. specialize (IH ps (S i) HL). destruct (encrypt_cek E (rnd i) m sk d seal_cek p) as [r|x|] eqn:EC; cbn [rbind].
    + split.
      * intros H. destruct (seal_loop E rnd m sk (S i) ds ps) as [rs|x|] eqn:EL; try discriminate. destruct (proj1 IH eq_refl) as [k [dest [H1 [H2 H3]]]].
        exists (S k), dest. split; [exact H1|]. split; [replace (i + S k) with (S i + k) by lia; exact H2|].
        intros [|j] d' Hj HN; [injection HN as <-; exists r; rewrite Nat.add_0_r; exact EC|]. replace (i + S j) with (S i + j) by lia. apply H3; [lia|exact HN].
      * intros [[|k] [dest [H1 [H2 H3]]]]; [injection H1 as <-; rewrite Nat.add_0_r in H2; cbn [nth] in H2; rewrite EC in H2; discriminate|].
        assert (HP : seal_loop E rnd m sk (S i) ds ps = Panic).
        { apply IH. exists k, dest. split; [exact H1|]. split; [replace (S i + k) with (i + S k) by lia; exact H2|].
          intros j d' Hj HN. replace (S i + j) with (i + S j) by lia. apply (H3 (S j) d'); [lia|exact HN]. }
        now rewrite HP.
    + split; [discriminate|]. intros [[|k] [dest [H1 [H2 H3]]]].
      * injection H1 as <-. rewrite Nat.add_0_r in H2. cbn [nth] in H2. rewrite EC in H2. discriminate.
      * destruct (H3 0 d) as [r HR]; [lia|reflexivity|]. rewrite Nat.add_0_r in HR. cbn [nth] in HR. rewrite EC in HR. discriminate.
    + split; [intros _|reflexivity]. exists 0, d. split; [reflexivity|]. split; [rewrite Nat.add_0_r; exact EC|]. intros j d' Hj. lia.
Qed.

Lemma panic_gen : forall E rnd m sk keys, crypto_ok E -> wraps E -> rand_ok rnd -> (can_seal E m sk keys -> exists text, seal E rnd m sk keys = Ok text) -> seal E rnd m sk keys = Panic <-> meets_short_key E m sk keys.
Proof.
  intros E rnd m sk keys HC HT HR HIff. unfold meets_short_key. unfold can_seal in HIff. unfold seal in HIff |- *.
  destruct (Nat.eqb_spec (String.length sk) 32) as [HL|HL]; cbn [negb] in HIff |- *; [|split; [discriminate|intros [H _]; contradiction]].
  set (to := dh_to (m_did m)) in *.
  assert (HK : (exists pks, match keys with Some l => if negb (List.length l =? List.length to)%nat then Err (EGeneric "`to` and `recipient_public_keys` must have same length") else Ok l
                 | None => Ok (repeat None (List.length to)) end = Ok pks /\ List.length pks = List.length to /\ (forall k, nth k pks None = given_key keys k) /\
                 (forall l, keys = Some l -> List.length l = List.length to)) \/
               (exists x l, match keys with Some l => if negb (List.length l =? List.length to)%nat then Err (EGeneric "`to` and `recipient_public_keys` must have same length") else Ok l
                 | None => Ok (repeat None (List.length to)) end = Err x /\ keys = Some l /\ List.length l <> List.length to)).
  { destruct keys as [l|].
    - destruct (Nat.eqb_spec (List.length l) (List.length to)) as [HE|HE].
      + left. exists l. split; [reflexivity|]. split; [exact HE|]. split; [reflexivity|]. intros l' Hl. now injection Hl as <-.
      + right. eexists. exists l. split; [reflexivity|]. now split.
    - left. exists (repeat None (List.length to)). split; [reflexivity|]. split; [apply repeat_length|]. split; [intros k; apply nth_repeat_none|]. discriminate. }
  destruct HK as [[pks [HP [HPL [HPN HKL]]]]|[x [l [HP [HKl HNl]]]]]; rewrite HP in HIff |- *; cbn [rbind] in HIff |- *.
  2:{ split; [discriminate|]. intros [_ [_ [H _]]]. elim HNl. now apply H. }
  clear HP. destruct (Nat.eqb_spec (List.length to) 0) as [H0|H0].
  { split; [discriminate|]. intros [_ [_ [_ [alg [k [dest [_ [_ [HN _]]]]]]]]]. destruct to; [destruct k; discriminate|discriminate]. }
  destruct (m_flat_jwe m && (1 <? List.length to)%nat)%bool eqn:EF.
  { split; [discriminate|]. intros [_ [HF _]]. apply andb_true_iff in EF. destruct EF as [EF1 EF2]. apply Nat.ltb_lt in EF2. rewrite (HF EF1) in EF2. lia. }
  assert (HF : m_flat_jwe m = true -> List.length to = 1).
  { intros G. rewrite G in EF. cbn [andb] in EF. apply Nat.ltb_ge in EF. lia. }
  assert (HLoop : seal_loop E (sr_rec rnd) m sk 0 to pks = Panic <->
    exists alg k dest, jh_alg (m_jwm m) = Some alg /\ (0 < k -> In alg (map fst wrap_table)) /\ nth_error to k = Some dest /\ has_short_key E dest (given_key keys k) /\
      forall j d, j < k -> nth_error to j = Some d -> has_key E d (given_key keys j)).
  { rewrite (loop_panic E (sr_rec rnd) m sk to pks 0 HPL). split.
    - intros [k [dest [H1 [H2 H3]]]]. apply (cek_panic E rnd (0 + k) m sk dest _ HC HT HR HL) in H2. destruct H2 as [[alg HA] HS]. rewrite HPN in HS.
      exists alg, k, dest. split; [exact HA|]. split.
      + intros Hk. destruct to as [|d0 ds]; [now elim H0|]. pose proof (H3 0 d0 Hk eq_refl) as H4. apply (cek_ok_iff E rnd (0 + 0) m sk d0 _ HC HT HR HL) in H4.
        destruct H4 as [[alg' [HA' HI]] _]. congruence.
      + split; [exact H1|]. split; [exact HS|]. intros j d Hj HN. pose proof (H3 j d Hj HN) as H4. apply (cek_ok_iff E rnd (0 + j) m sk d _ HC HT HR HL) in H4.
        rewrite HPN in H4. apply H4.
    - intros [alg [k [dest [HA [HI [H1 [HS H3]]]]]]]. exists k, dest. split; [exact H1|]. split.
      + apply (cek_panic E rnd (0 + k) m sk dest _ HC HT HR HL). split; [now exists alg|]. now rewrite HPN.
      + intros j d Hj HN. apply (cek_ok_iff E rnd (0 + j) m sk d _ HC HT HR HL). rewrite HPN. split; [exists alg; split; [exact HA|apply HI; lia]|now apply H3]. }
  split.
  - intros H. split; [exact HL|]. split; [exact HF|]. split; [exact HKL|]. apply HLoop.
    destruct (seal_loop E (sr_rec rnd) m sk 0 to pks) as [rs|x|] eqn:EL; [exfalso|discriminate|reflexivity].
    apply seal_loop_ok in EL; [|exact HPL]. destruct EL as [_ EL]. destruct HIff as [text HOk]; [|cbn [rbind] in H, HOk; rewrite H in HOk; discriminate].
    split; [exact HL|]. split; [intros G; rewrite G in H0; now apply H0|]. split; [exact HF|]. split; [exact HKL|].
    assert (HAll : forall k dest, nth_error to k = Some dest -> (exists alg, jh_alg (m_jwm m) = Some alg /\ In alg (map fst wrap_table)) /\ has_key E dest (given_key keys k)).
    { intros k dest HN. destruct (EL k dest HN) as [r [_ HE]]. rewrite <- HPN. apply (cek_ok_iff E rnd (0 + k) m sk dest _ HC HT HR HL). now exists r. }
    split; [|intros k dest HN; exact (proj2 (HAll k dest HN))].
    destruct to as [|d0 ds]; [now elim H0|]. destruct (HAll 0 d0 eq_refl) as [[alg [HA HI]] _]. apply in_map_iff in HI. destruct HI as [[alg' a] [HE HI]]. cbn [fst] in HE. subst alg'.
    exists alg, a. now split.
  - intros [_ [_ [_ H]]]. apply HLoop in H. now rewrite H.
Qed.
(** [seal] panics exactly then. *)
Theorem C83_iff : forall E rnd m sk keys, crypto_ok E -> crypto_total E -> rand_ok rnd -> seal E rnd m sk keys = Panic <-> meets_short_key E m sk keys.
Proof.
  intros E rnd m sk keys HC HT HR. apply panic_gen; [exact HC| |exact HR|].
  - intros a k n HU HK HN. exact (SealFacts3.wrap_total E a k n "" seal_cek HT HU HK HN).
  - apply (C82_iff E rnd m sk keys HC HT HR).
Qed.
(** With the key agreement and the ciphers of the crate, for messages of up to 64 MiB. *)
Theorem C83_real : forall E rnd m sk keys, rand_ok rnd -> (len64 (as_raw_json m) <= 2 ^ 26)%N -> seal (whole E) rnd m sk keys = Panic <-> meets_short_key E m sk keys.
Proof.
  intros E rnd m sk keys HR HZ. apply (panic_gen (whole E) rnd m sk keys); [exact (ciphers_ok _ (whole_dh E))| |exact HR|].
  - intros a k n HU HK HN. exact (wrap_short (real (curve E)) a k n HU HK HN).
  - exact (proj2 (C82_real E rnd m sk keys HR HZ)).
Qed.
(** So nobody whose recipients all have sufficient keys, or none, sees a panic. *)
Theorem C83_safe : forall E rnd m sk keys, crypto_ok E -> crypto_total E -> rand_ok rnd ->
  (forall k dest, nth_error (dh_to (m_did m)) k = Some dest -> ~ has_short_key E dest (given_key keys k)) -> seal E rnd m sk keys <> Panic.
Proof.
  intros E rnd m sk keys HC HT HR HN H. apply (C83_iff E rnd m sk keys HC HT HR) in H. destruct H as [_ [_ [_ [alg [k [dest [_ [_ [H1 [H2 _]]]]]]]]]]. exact (HN k dest H1 H2).
Qed.
(** Whoever can choose the DID document of one recipient can make the sender panic: with the keys left to the resolver, a message that could be sealed for the others. *)
Theorem C83_document : forall E rnd m sk dest others doc key, crypto_ok E -> crypto_total E -> rand_ok rnd -> can_seal E (with_did m (dh_with_to (m_did m) others)) sk None ->
  m_flat_jwe m = false -> dh_to (m_did m) = (others ++ [dest])%list -> resolve E dest = Some doc -> doc_key doc "X25519" = Some key -> String.length key < 32 ->
  seal E rnd m sk None = Panic.
Proof.
  intros E rnd m sk dest others doc key HC HT HR [H1 [_ [_ [_ [[alg [a [HA HI]]] H6]]]]] HFl HTo HD HK HS. cbn [with_did m_did dh_with_to dh_to m_jwm] in *.
  apply (C83_iff E rnd m sk None HC HT HR). split; [exact H1|]. split; [congruence|]. split; [discriminate|].
  exists alg, (List.length others), dest. split; [exact HA|]. split; [intros _; apply in_map_iff; now exists (alg, a)|]. rewrite HTo.
  split; [rewrite nth_error_app2 by lia; now rewrite Nat.sub_diag|]. split; [exists key; split; [|exact HS]; right; split; [reflexivity|]; now exists doc|].
  intros j d Hj HN. rewrite nth_error_app1 in HN by exact Hj. exact (H6 j d HN).
Qed.
(** One more mediator. *)
Lemma wrap_panic : forall E from sk h next inner, crypto_ok E -> crypto_total E -> rand_ok (hop_rnd h) -> usable (hop_alg h) -> String.length sk = 32 ->
  wrap_one E from sk h next inner = Panic <-> hop_did h <> "" /\ has_short_key E (hop_did h) (hop_key h).
Proof.
  intros E from sk h next inner HC HT HR HU HL. rewrite wrap_ok, (C83_iff E (hop_rnd h) _ sk (Some [hop_key h]) HC HT HR). unfold meets_short_key. cbn [with_body m_did m_jwm m_flat_jwe].
  destruct (outer_shell_rest E (hop_uuid h) from (hop_alg h) (hop_did h) (hop_key h)) as [_ [HFl [_ [_ [_ [_ [_ HA]]]]]]]. rewrite HFl, (HA HU), outer_shell_did.
  cbn [dh_with_from dh_with_to dh_to filter]. unfold non_empty. destruct (String.eqb_spec (hop_did h) "") as [HD|HD]; cbn [negb].
  - split; [|intros [N _]; contradiction]. intros [_ [_ [_ [alg [[|k] [dest [_ [_ [HN _]]]]]]]]]; discriminate.
  - split.
    + intros [_ [_ [_ [alg [k [dest [_ [_ [HN [HS _]]]]]]]]]]. destruct k as [|[|k]]; [|discriminate|discriminate]. injection HN as <-. now split.
    + intros [_ HS]. split; [exact HL|]. split; [discriminate|]. split; [intros l Hl; injection Hl as <-; reflexivity|].
      exists (wrap_name (hop_alg h)), 0, (hop_did h). split; [reflexivity|]. split; [lia|]. split; [reflexivity|]. split; [exact HS|]. intros j d Hj. lia.
Qed.
(** [routed_by] panics exactly if the algorithm wraps keys and there is no recipient, or sealing for the recipients panics, or succeeds and the key of the mediator is too short. *)
Theorem C83_routed : forall E rnd1 rnd2 uuid m sk keys mediator mkey, crypto_ok E -> crypto_total E -> rand_ok rnd1 -> rand_ok rnd2 ->
  routed_by E rnd1 rnd2 uuid m sk keys mediator mkey = Panic <->
  (exists alg a, jh_alg (m_jwm m) = Some alg /\ In (alg, a) wrap_table) /\
  (dh_to (m_did m) = [] \/ meets_short_key E m sk keys \/ can_seal E m sk keys /\ mediator <> "" /\ has_short_key E mediator mkey).
Proof.
  intros E rnd1 rnd2 uuid m sk keys mediator mkey HC HT HR1 HR2. rewrite <- (C82_iff E rnd1 m sk keys HC HT HR1), <- (C83_iff E rnd1 m sk keys HC HT HR1). unfold routed_by, crypter_of.
  destruct (jh_alg (m_jwm m)) as [alg|] eqn:HA; [|split; [discriminate|intros [[x [a [H _]]] _]; discriminate]].
  destruct (crypto_alg_of alg) as [a|x|] eqn:EA; cbn [rbind].
  2:{ split; [discriminate|]. intros [[y [a [Hy HI]]] _]. injection Hy as <-. apply crypto_alg_of_table in HI. congruence. }
  2:{ unfold crypto_alg_of in EA. repeat (destruct (String.eqb _ _) in EA; try discriminate). }
  assert (HU : usable a) by (apply crypto_alg_of_ok in EA; apply EA). apply crypto_alg_of_table in EA. unfold first_to.
  destruct (dh_to (m_did m)) as [|next rest] eqn:ET; cbn [rbind].
  { split; [intros _|reflexivity]. split; [exists alg, a; now split|]. now left. }
  destruct (seal E rnd1 m sk keys) as [inner|x|] eqn:ES; cbn [rbind].
  - pose proof (C82_needed E rnd1 m sk keys inner ES) as [HL _].
    pose proof (wrap_panic E (or_empty (dh_from (m_did m))) sk {| hop_did := mediator; hop_key := mkey; hop_alg := a; hop_uuid := uuid; hop_rnd := rnd2 |} next inner HC HT HR2 HU HL) as HW.
    unfold wrap_one in HW. cbn [hop_did hop_key hop_alg hop_uuid hop_rnd] in HW. rewrite HW. split.
    + intros H. split; [exists alg, a; now split|]. right. right. split; [now exists inner|exact H].
    + intros [_ [H|[H|[_ H]]]]; [discriminate|discriminate|exact H].
  - split; [discriminate|]. intros [_ [H|[H|[[text H] _]]]]; discriminate.
  - split; [|reflexivity]. intros _. split; [exists alg, a; now split|]. right. now left.
Qed.

(** ** Cases *)

(** A resolver that also has a document for Carol, with a key of 31 bytes. *)
Definition toy_short : env := {|
  x_pub := x_pub toy; x_dh := x_dh toy; xc_enc := xc_enc toy; xc_dec := xc_dec toy; gcm_enc := gcm_enc toy; gcm_dec := gcm_dec toy;
  cbc_enc := cbc_enc toy; sig_sign := sig_sign toy; sig_verify := sig_verify toy;
  resolve := fun did => if String.eqb did "did:toy:carol" then Some (toy_doc (srepeat 31 "c")) else resolve toy did; fl := fl toy; ho := ho toy |}.
Lemma toy_short_crypto : crypto_ok toy_short.
Proof.
  destruct toy_crypto as [[D1 D2] X G]. constructor; [constructor; [exact D1|exact D2]|exact X|exact G].
Qed.
Lemma toy_short_total : crypto_total toy_short.
Proof. destruct toy_total as [T1 T2]. constructor; [exact T1|exact T2]. Qed.
(** A message to the given people. *)
Definition ex_to (l : list string) : message := as_jwe (resolve toy) (set_from (set_to (message_new "urn:short") l) "did:toy:alice") XC20P (Some bob_key).
Example C83_example_document : seal toy_short ex_rand (ex_to ["did:toy:bob"; "did:toy:carol"]) alice_key None = Panic /\
  exists text, seal toy_short ex_rand (ex_to ["did:toy:bob"]) alice_key None = Ok text.
Proof.
  assert (H : can_seal toy_short (ex_to ["did:toy:bob"]) alice_key None).
  { split; [apply srepeat_length|]. split; [discriminate|]. split; [discriminate|]. split; [discriminate|].
    split; [exists "ECDH-1PU+XC20PKW", XC20P; split; [reflexivity|]; apply crypto_alg_of_table; reflexivity|].
    intros [|k] dest HN; [|destruct k; discriminate]. injection HN as <-. exists (srepeat 32 "b"). split; [|vm_compute; lia]. right. split; [reflexivity|]. eexists. split; reflexivity. }
  split; [|exact (proj2 (C82_iff toy_short ex_rand _ _ _ toy_short_crypto toy_short_total ex_rand_ok) H)].
  apply (C83_document toy_short ex_rand (ex_to ["did:toy:bob"; "did:toy:carol"]) alice_key "did:toy:carol" ["did:toy:bob"] (toy_doc (srepeat 31 "c")) (srepeat 31 "c")
    toy_short_crypto toy_short_total ex_rand_ok); [exact H|reflexivity|reflexivity|reflexivity|reflexivity|vm_compute; lia].
Qed.
(** A key that is passed: too short for the first of two recipients. *)
Example C83_example_given : meets_short_key toy (ex_to ["did:toy:bob"; "did:toy:alice"]) alice_key (Some [Some ""; None]).
Proof.
  split; [apply srepeat_length|]. split; [discriminate|]. split; [intros l HL; injection HL as <-; reflexivity|].
  exists "ECDH-1PU+XC20PKW", 0, "did:toy:bob". split; [reflexivity|]. split; [lia|]. split; [reflexivity|]. split; [exists ""; split; [now left|vm_compute; lia]|]. intros j d Hj. lia.
Qed.
(** A recipient without any key gives an error, even with a short key behind. *)
Example C83_example_order : seal toy ex_rand (ex_to ["did:toy:nobody"; "did:toy:bob"]) alice_key (Some [None; Some ""]) <> Panic /\
  ~ has_key toy "did:toy:nobody" None /\ has_short_key toy "did:toy:bob" (Some "").
Proof.
  assert (HN : forall key, ~ known_key toy "did:toy:nobody" None key) by (intros key [H|[_ [doc [H _]]]]; discriminate).
  split; [|split; [intros [key [H _]]; exact (HN key H)|exists ""; split; [now left|vm_compute; lia]]].
  intros H. apply (C83_iff toy ex_rand _ _ _ toy_crypto toy_total ex_rand_ok) in H. destruct H as [_ [_ [_ [alg [k [dest [_ [_ [H1 [H2 H3]]]]]]]]]].
  destruct k as [|k].
  - injection H1 as <-. destruct H2 as [key [H2 _]]. exact (HN key H2).
  - destruct (H3 0 "did:toy:nobody") as [key [H4 _]]; [lia|reflexivity|]. exact (HN key H4).
Qed.
(** A mediator with a short key. *)
Example C83_example_routed : routed_by toy_short ex_rand ex_rand "urn:f" (ex_to ["did:toy:bob"]) alice_key (Some [Some bob_key]) "did:toy:carol" None = Panic.
Proof.
  apply (C83_routed toy_short ex_rand ex_rand "urn:f" _ _ _ _ _ toy_short_crypto toy_short_total ex_rand_ok ex_rand_ok).
  assert (HA : exists alg a, jh_alg (m_jwm (ex_to ["did:toy:bob"])) = Some alg /\ In (alg, a) wrap_table) by (exists "ECDH-1PU+XC20PKW", XC20P; split; [reflexivity|]; apply crypto_alg_of_table; reflexivity).
  split; [exact HA|]. right. right. split; [|split; [discriminate|]].
  - split; [apply srepeat_length|]. split; [discriminate|]. split; [discriminate|]. split; [intros l Hl; injection Hl as <-; reflexivity|]. split; [exact HA|].
    intros [|k] dest HN; [|destruct k; discriminate]. exists bob_key. split; [left; reflexivity|vm_compute; lia].
  - exists (srepeat 31 "c"). split; [|vm_compute; lia]. right. split; [reflexivity|]. eexists. split; reflexivity.
Qed.

Print Assumptions C83_iff.
Print Assumptions C83_real.
Print Assumptions C83_safe.
Print Assumptions C83_document.
Print Assumptions C83_routed.
