(** When sealing succeeds, and replies to messages without sender: C82. *)

From Coq Require Import Ascii String Arith ZArith NArith List Bool Permutation Lia.
From Verif Require Import Bytes BytesFacts Base64 Utf8 Json JsonFacts Value Types Serde SerdeFacts
  Message Attach ChaCha Sha256 Envelope Spec SpecFacts DecodeFacts PlainFacts SetterFacts SpecText CryptoLaws Examples PropPlain
  SpecSign HeaderFacts SignFacts PropSign SpecSeal SealFacts SealFacts2 SealFacts3 PropSeal SpecOps PropSetters Aead AeadFacts PropAead Curve CurveFacts PropCurve SpecRoute RouteFacts PropRoute PropOnion PropPeel.
Import ListNotations.
Local Open Scope nat_scope.
Local Open Scope string_scope.

(** ** C82 *)

(** What [seal] needs: a secret of 32 bytes; recipients, only one for the flat form; a place for a key for each of them, if keys are given; an algorithm that wraps keys; and
    for each recipient a key, given or from the DID document, of at least 32 bytes. *)
Definition can_seal (E : env) (m : message) (sk : string) (keys : option (list (option string))) : Prop :=
  String.length sk = 32 /\ dh_to (m_did m) <> [] /\ (m_flat_jwe m = true -> List.length (dh_to (m_did m)) = 1) /\
  (forall l, keys = Some l -> List.length l = List.length (dh_to (m_did m))) /\
  (exists alg a, jh_alg (m_jwm m) = Some alg /\ In (alg, a) wrap_table) /\
  forall k dest, nth_error (dh_to (m_did m)) k = Some dest -> exists key, known_key E dest (given_key keys k) key /\ 32 <= String.length key.
(** It is needed, whatever the primitives do. *)
Theorem C82_needed : forall E rnd m sk keys text, seal E rnd m sk keys = Ok text -> can_seal E m sk keys.
Proof.
  intros E rnd m sk keys text H. apply seal_ok in H. destruct H as [H1 [H2 [H3 [H4 [rs [a [_ [H6 [H7 [H8 _]]]]]]]]]].
  split; [exact H1|]. split; [exact H2|]. split; [exact H3|]. split; [exact H4|].
  split; [exists (wrap_name a), a; split; [exact H8|]; apply crypto_alg_of_table, crypto_alg_of_ok; now split|].
  intros k dest HN. destruct (H6 k dest HN) as [r [_ HR]]. apply encrypt_cek_ok in HR. destruct HR as [a' [key [c [_ [_ [HK [HL _]]]]]]]. now exists key.
Qed.
(** It is enough if encryption itself never refuses. *)
Theorem C82_iff : forall E rnd m sk keys, crypto_ok E -> crypto_total E -> rand_ok rnd -> (exists text, seal E rnd m sk keys = Ok text) <-> can_seal E m sk keys.
Proof.
  intros E rnd m sk keys HC HT HR. split; [intros [text H]; exact (C82_needed E rnd m sk keys text H)|].
  intros [H1 [H2 [H3 [H4 [[alg [a [H5 H6]]] H7]]]]]. apply crypto_alg_of_table, crypto_alg_of_ok in H6. destruct H6 as [HU ->].
  exact (seal_total E rnd m sk keys a HC HT HR HU H5 H1 H2 H3 H4 H7).
Qed.
(** With the key agreement and the ciphers of the crate, for messages of up to 64 MiB. *)
Theorem C82_real : forall E rnd m sk keys, rand_ok rnd -> (len64 (as_raw_json m) <= 2 ^ 26)%N -> (exists text, seal (whole E) rnd m sk keys = Ok text) <-> can_seal E m sk keys.
Proof.
  intros E rnd m sk keys HR HZ. split; [intros [text H]; exact (C82_needed (whole E) rnd m sk keys text H)|].
  intros [H1 [H2 [H3 [H4 [[alg [a [H5 H6]]] H7]]]]]. exact (C69_seal_total E rnd m sk keys alg a HR H5 H6 H1 H2 H3 H4 H7 HZ).
Qed.
(** [seal_signed] succeeds exactly when sealing would and the message can be signed. *)
Theorem C82_signed : forall E rnd m sk keys sa ssk, crypto_ok E -> crypto_total E -> rand_ok rnd ->
  (exists text, seal_signed E rnd m sk keys sa ssk = Ok text) <-> can_seal E m sk keys /\ exists signed, sign (as_jws m sa) (signer E sa) ssk = Ok signed.
Proof.
  intros E rnd m sk keys sa ssk HC HT HR. split.
  - intros [text H]. apply seal_signed_ok in H. destruct H as [s [H1 H2]]. split; [exact (C82_needed E rnd _ sk keys text H2)|].
    exists (jws_json (sign_env (as_jws m sa) s)). apply sign_ok. exists s. split; [discriminate|]. split; [|reflexivity]. now apply signer_ok.
  - intros [HS [signed H]]. apply sign_ok in H. destruct H as [s [_ [H _]]]. apply signer_ok in H. rewrite (seal_signed_seals _ _ _ _ _ _ _ _ H).
    apply (C82_iff E rnd _ sk keys HC HT HR). exact HS.
Qed.
(** An envelope for one more mediator. *)
Lemma wrap_needed : forall E from sk h next inner text, wrap_one E from sk h next inner = Ok text ->
  String.length sk = 32 /\ hop_alg h <> A256CBC /\ hop_did h <> "" /\ exists key, known_key E (hop_did h) (hop_key h) key /\ 32 <= String.length key.
Proof.
  intros E from sk h next inner text H. pose proof (wrap_usable _ _ _ _ _ _ _ H) as HU. pose proof (wrap_did _ _ _ _ _ _ _ H) as HM. rewrite wrap_ok in H.
  apply C82_needed in H. destruct H as [H1 [_ [_ [_ [_ H6]]]]]. split; [exact H1|]. split; [exact HU|]. split; [exact HM|].
  pose proof (outer_shell_did E (hop_uuid h) from (hop_alg h) (hop_did h) (hop_key h)) as HD.
  assert (HFil : filter non_empty [hop_did h] = [hop_did h]) by (cbn; unfold non_empty; destruct (String.eqb_spec (hop_did h) ""); [contradiction|reflexivity]). rewrite HFil in HD.
  apply (H6 0 (hop_did h)). cbn [with_body m_did]. now rewrite HD.
Qed.
(** [routed_by] succeeds exactly when sealing for the recipients would, and the mediator has a name and a key. *)
Theorem C82_routed : forall E rnd1 rnd2 uuid m sk keys mediator mkey, crypto_ok E -> crypto_total E -> rand_ok rnd1 -> rand_ok rnd2 ->
  (exists text, routed_by E rnd1 rnd2 uuid m sk keys mediator mkey = Ok text) <->
  can_seal E m sk keys /\ mediator <> "" /\ exists key, known_key E mediator mkey key /\ 32 <= String.length key.
Proof.
  intros E rnd1 rnd2 uuid m sk keys mediator mkey HC HT HR1 HR2. split.
  - intros [text H]. apply C79_routed_by in H. destruct H as [alg [a [next [rest [inner [_ [_ [_ [HS H]]]]]]]]]. split; [exact (C82_needed E rnd1 m sk keys inner HS)|].
    cbn [onion] in H. destruct (wrap_one _ _ _ _ _ _) as [t| |] eqn:EW; [|discriminate|discriminate]. apply wrap_needed in EW. destruct EW as [_ [_ EW]]. exact EW.
  - intros [HS [HM HK]]. pose proof HS as [HL [HTo [_ [_ [[alg [a [HA HI]]] _]]]]]. apply (C82_iff E rnd1 m sk keys HC HT HR1) in HS. destruct HS as [inner HS].
    destruct (dh_to (m_did m)) as [|next rest] eqn:ET; [contradiction|].
    pose (h := {| hop_did := mediator; hop_key := mkey; hop_alg := a; hop_uuid := uuid; hop_rnd := rnd2 |}).
    assert (HU : usable (hop_alg h)) by (apply crypto_alg_of_table, crypto_alg_of_ok in HI; apply HI).
    destruct (wrap_total E (or_empty (dh_from (m_did m))) sk h next inner HC HT HR2 HU HL HM HK) as [text HW].
    exists text. apply C79_routed_by. exists alg, a, next, rest, inner. split; [exact HA|]. split; [exact HI|]. split; [exact ET|]. split; [exact HS|].
    cbn [onion]. fold h. rewrite HW. reflexivity.
Qed.
(** The same for chains of mediators around an envelope. *)
Theorem C82_chain : forall E from sk hops next inner, crypto_ok E -> crypto_total E -> Forall (fun h => rand_ok (hop_rnd h)) hops -> hops <> [] ->
  (exists text, onion E from sk hops next inner = Ok text) <->
  String.length sk = 32 /\ Forall (fun h => hop_alg h <> A256CBC /\ hop_did h <> "" /\ exists key, known_key E (hop_did h) (hop_key h) key /\ 32 <= String.length key) hops.
Proof.
  intros E from sk hops next inner HC HT HR HN. split.
  - intros [text H]. revert next inner text H HN HR. induction hops as [|h hops IH]; intros next inner text H HN HR; [contradiction|]. cbn [onion] in H.
    destruct (wrap_one E from sk h next inner) as [t| |] eqn:EW; [|discriminate|discriminate]. cbn [rbind] in H. apply wrap_needed in EW. destruct EW as [W1 W2].
    split; [exact W1|]. constructor; [exact W2|]. destruct hops as [|g hops]; [constructor|]. apply (IH (hop_did h) t text H); [discriminate|]. now inversion HR.
  - intros [HL HF]. apply (C79_total E from sk hops next inner HC HT HL). rewrite Forall_forall in *. intros h Hh. split; [now apply HR|]. now apply HF.
Qed.
(** A reply to a message without sender has the empty text as its last recipient; no call of [to] puts it there (C27). *)
Lemma reply_recipients : forall m p, dh_to (m_did (reply_to m p)) = (dh_to (m_did m) ++ [match dh_from (m_did p) with Some f => f | None => "" end])%list.
Proof.
  intros m p. unfold reply_to, dh_reply_to. cbn [with_did m_did]. destruct (dh_thread (m_did p)) as [t|]; [destruct (is_implicit_reply t (dh_id (m_did p)))|]; reflexivity.
Qed.
(** Sealing such a reply [r] (whatever else was set in it) takes a key for the empty text: one that is passed in the last place, or one in a document that the resolver has for the empty text. *)
Theorem C82_anonymous : forall E rnd m p r sk keys text, dh_from (m_did p) = None -> dh_to (m_did r) = dh_to (m_did (reply_to m p)) -> seal E rnd r sk keys = Ok text ->
  exists key, known_key E "" (given_key keys (List.length (dh_to (m_did m)))) key.
Proof.
  intros E rnd m p r sk keys text HF HR H. apply C82_needed in H. destruct H as [_ [_ [_ [_ [_ H]]]]]. rewrite HR, reply_recipients, HF in H.
  destruct (H (List.length (dh_to (m_did m))) "") as [key [HK _]]; [rewrite nth_error_app2 by lia; now rewrite Nat.sub_diag|]. now exists key.
Qed.
(** So without keys it is refused or the resolver knows the empty text. *)
Theorem C82_unsealable : forall E rnd m p r sk, dh_from (m_did p) = None -> dh_to (m_did r) = dh_to (m_did (reply_to m p)) -> resolve E "" = None ->
  forall text, seal E rnd r sk None <> Ok text.
Proof.
  intros E rnd m p r sk HF HR HN text H. destruct (C82_anonymous E rnd m p r sk None text HF HR H) as [key [HK|[_ [doc [HK _]]]]]; [discriminate|congruence].
Qed.
(** Calling [to] afterwards, even with nothing, takes the empty text out again. *)
Theorem C82_mended : forall m p xs, dh_from (m_did p) = None -> ~ In "" (dh_to (m_did m)) ->
  dh_to (m_did (set_to (reply_to m p) xs)) = (dh_to (m_did m) ++ filter (fun s => negb (String.eqb s "")) xs)%list.
Proof.
  intros m p xs HF HN. rewrite C27_to. cbn [m_did dh_to]. rewrite reply_recipients, HF, !filter_app. cbn [filter String.eqb negb]. rewrite app_nil_r. f_equal.
  induction (dh_to (m_did m)) as [|x l IH]; [reflexivity|]. cbn [filter]. destruct (String.eqb_spec x "") as [->|N]; [elim HN; now left|]. cbn [negb]. f_equal. apply IH.
  intros HI. apply HN. now right.
Qed.
(** A reply that was already addressed to the sender has two entries for it when it is sealed. *)
Theorem C82_twice : forall E rnd m p r sk keys text alg f, dh_from (m_did p) = Some f -> In f (dh_to (m_did m)) -> dh_to (m_did r) = dh_to (m_did (reply_to m p)) ->
  jh_alg (m_jwm r) = Some alg -> seal E rnd r sk keys = Ok text ->
  exists es l i j e1 e2, parse text = Some (JObj es) /\ In ("recipients", JArr l) es /\ i < j /\ nth_error l i = Some (JObj e1) /\ nth_error l j = Some (JObj e2) /\
    entry_for f alg e1 /\ entry_for f alg e2.
Proof.
  intros E rnd m p r sk keys text alg f HF HI HR HA H. destruct (C15_entries E rnd r sk keys text alg HA H) as [es [HP [_ HC]]]. rewrite HR, reply_recipients, HF in HC.
  destruct (m_flat_jwe r).
  - destruct HC as [[dest [HD _]] _]. destruct (dh_to (m_did m)) as [|x [|y l]]; [destruct HI|discriminate|discriminate].
  - destruct HC as [l [HL [H2 _]]]. apply In_nth_error in HI. destruct HI as [i HI].
    assert (HLt : i < List.length (dh_to (m_did m))) by (apply nth_error_Some; congruence).
    exists es, l, i, (List.length (dh_to (m_did m))).
    assert (G : forall k d, nth_error (dh_to (m_did m) ++ [f])%list k = Some d -> exists e, nth_error l k = Some (JObj e) /\ entry_for d alg e).
    { clear - H2. revert H2. generalize (dh_to (m_did m) ++ [f])%list. intros ds H2. induction H2 as [|d e ds l [fs [-> HE]] H2 IH]; intros [|k] d' HN; try discriminate.
      - injection HN as <-. now exists fs.
      - apply (IH k d' HN). }
    destruct (G i f) as [e1 [A1 A2]]; [now rewrite nth_error_app1|].
    destruct (G (List.length (dh_to (m_did m))) f) as [e2 [B1 B2]]; [rewrite nth_error_app2 by lia; now rewrite Nat.sub_diag|].
    exists e1, e2. repeat (split; [assumption|]). assumption.
Qed.

(** ** Cases *)

(** A reply of Alice, already addressed to Bob, to a message of Bob, and to one that does not say whose it is. *)
Definition ex_answer (from : option string) : message :=
  as_jwe (resolve toy) (reply_to (set_from (set_to (message_new "urn:answer") ["did:toy:bob"]) "did:toy:alice")
    (with_did (message_new "urn:question") (dh_with_from (m_did (message_new "urn:question")) from))) XC20P (Some bob_key).
Example C82_example : can_seal toy (ex_answer (Some "did:toy:bob")) alice_key (Some [Some bob_key; Some bob_key]) /\
  (exists text, seal toy ex_rand (ex_answer (Some "did:toy:bob")) alice_key (Some [Some bob_key; Some bob_key]) = Ok text) /\
  dh_to (m_did (ex_answer (Some "did:toy:bob"))) = ["did:toy:bob"; "did:toy:bob"] /\ jh_alg (m_jwm (ex_answer (Some "did:toy:bob"))) = Some "ECDH-1PU+XC20PKW".
Proof.
  assert (H : can_seal toy (ex_answer (Some "did:toy:bob")) alice_key (Some [Some bob_key; Some bob_key])).
  { split; [apply srepeat_length|]. split; [discriminate|]. split; [discriminate|]. split; [intros l HL; injection HL as <-; reflexivity|].
    split; [exists "ECDH-1PU+XC20PKW", XC20P; split; [reflexivity|]; apply crypto_alg_of_table; reflexivity|].
    intros k dest HN. exists bob_key. split; [|vm_compute; lia]. left. destruct k as [|[|k]]; [reflexivity|reflexivity|]. destruct k; discriminate. }
  split; [exact H|]. split; [exact (proj2 (C82_iff toy ex_rand _ _ _ toy_crypto toy_total ex_rand_ok) H)|]. split; reflexivity.
Qed.
Example C82_example_signed : exists text, seal_signed toy ex_rand (ex_answer (Some "did:toy:bob")) alice_key (Some [Some bob_key; Some bob_key]) EdDsa "signing" = Ok text.
Proof.
  apply (C82_signed toy ex_rand _ _ _ _ _ toy_crypto toy_total ex_rand_ok). split; [exact (proj1 C82_example)|]. apply C05_sign_total. eexists. reflexivity.
Qed.
Example C82_example_routed : exists text, routed_by toy ex_rand ex_rand "urn:f" (ex_answer (Some "did:toy:bob")) alice_key (Some [Some bob_key; Some bob_key]) "did:toy:alice" None = Ok text.
Proof.
  apply (C82_routed toy ex_rand ex_rand "urn:f" _ _ _ _ _ toy_crypto toy_total ex_rand_ok ex_rand_ok). split; [exact (proj1 C82_example)|]. split; [discriminate|].
  exists (srepeat 32 "a"). split; [|vm_compute; lia]. right. split; [reflexivity|]. eexists. split; reflexivity.
Qed.
Example C82_example_anonymous : dh_to (m_did (ex_answer None)) = ["did:toy:bob"; ""] /\ resolve toy "" = None /\ (forall text, seal toy ex_rand (ex_answer None) alice_key None <> Ok text) /\
  exists text, seal toy ex_rand (ex_answer None) alice_key (Some [Some bob_key; Some alice_key]) = Ok text.
Proof.
  split; [reflexivity|]. split; [reflexivity|]. split.
  - apply (C82_unsealable toy ex_rand (set_from (set_to (message_new "urn:answer") ["did:toy:bob"]) "did:toy:alice")
      (with_did (message_new "urn:question") (dh_with_from (m_did (message_new "urn:question")) None))); reflexivity.
  - apply (C82_iff toy ex_rand _ _ _ toy_crypto toy_total ex_rand_ok). split; [apply srepeat_length|]. split; [discriminate|]. split; [discriminate|].
    split; [intros l HL; injection HL as <-; reflexivity|]. split; [exists "ECDH-1PU+XC20PKW", XC20P; split; [reflexivity|]; apply crypto_alg_of_table; reflexivity|].
    intros k dest HN. destruct k as [|[|k]]; [exists bob_key|exists alice_key|destruct k; discriminate]; (split; [left; reflexivity|vm_compute; lia]).
Qed.

Print Assumptions C82_needed.
Print Assumptions C82_iff.
Print Assumptions C82_real.
Print Assumptions C82_signed.
Print Assumptions C82_routed.
Print Assumptions C82_chain.
Print Assumptions C82_anonymous.
Print Assumptions C82_unsealable.
Print Assumptions C82_mended.
Print Assumptions C82_twice.
