(** Messages through any number of mediators: C79. *)

From Coq Require Import Ascii String Arith ZArith NArith List Bool Permutation Lia.
From Verif Require Import Bytes BytesFacts Base64 Base64Facts Utf8 Utf8Facts Json JsonFacts Value ValueFacts Types Serde SerdeFacts
  Message Attach ChaCha Sha256 Aead Envelope Spec SpecFacts DecodeFacts PlainFacts CodecFacts SetterFacts SpecText CryptoLaws Examples PropPlain
  SpecSign HeaderFacts SignFacts SignFacts2 PropSign SpecSeal SealFacts SealFacts2 SealFacts3 PropSeal SpecRoute RouteFacts PropRoute KeyFacts PropKey AeadFacts AeadFacts2 SignSize PrimFacts3
  PropAead Float PropFloat SpecEnv SameFacts3 Curve CurveFacts PropCurve PropWhole.
Import ListNotations.
Local Open Scope nat_scope.
Local Open Scope string_scope.

(** ** Chains *)

(** A mediator as its sender sees it, and what is drawn for the envelope made for it. *)
Record hop := { hop_did : string; hop_key : option string; hop_alg : crypto_algorithm; hop_uuid : string; hop_rnd : seal_rand }.
(** An envelope for one more mediator, around an envelope for [next] (README.md:104-110): a forward message made as in src/messages/message.rs:462-474, for any inner envelope. *)
Definition wrap_one (E : env) (from sk : string) (h : hop) (next inner : string) : res string :=
  let outer := set_typ (as_jwe (resolve E) (set_from (set_to (message_new (hop_uuid h)) [hop_did h]) from) (hop_alg h) (hop_key h)) DidCommForward in
  let? outer := set_body (rt E 0) outer (print (ser_mediated (with_payload (mediated_new next) inner))) in
  seal E (hop_rnd h) outer sk (Some [hop_key h]).
(** For a chain of mediators, the last one first (README.md:108: keys in reverse order). *)
Fixpoint onion (E : env) (from sk : string) (hops : list hop) (next inner : string) : res string :=
  match hops with
  | [] => Ok inner
  | h :: r => let? t := wrap_one E from sk h next inner in onion E from sk r (hop_did h) t
  end.
(** What happens on the way, stated with [receive] alone: who has the identifier [did] opens the text with [msk], finds an identifier and a payload, and sends the
    payload there; and so on, until [inner] is sent to [dest]. *)
Inductive relayed (E : env) (sender : option string) : list (string * string) -> string -> string -> string -> string -> Prop :=
| relayed_done : forall dest inner, relayed E sender [] dest inner dest inner
| relayed_step : forall did msk r text f next payload dest inner, (forall signing, receive E text (Some msk) sender signing = Ok f) -> forwards (m_body f) next payload ->
    relayed E sender r next payload dest inner -> relayed E sender ((did, msk) :: r) did text dest inner.

(** ** Facts *)

Lemma relayed_snoc : forall E sender r did text did1 t1 msk f next inner, relayed E sender r did text did1 t1 ->
  (forall signing, receive E t1 (Some msk) sender signing = Ok f) -> forwards (m_body f) next inner -> relayed E sender (r ++ [(did1, msk)]) did text next inner.
Proof.
  intros E sender r did text did1 t1 msk f next inner H HR HF. induction H as [dest inner0|did msk0 r text f0 next0 payload dest inner0 H1 H2 H3 IH].
  - eapply relayed_step; [exact HR|exact HF|apply relayed_done].
  - eapply relayed_step; [exact H1|exact H2|exact (IH HR)].
Qed.
Lemma wrap_ok : forall E from sk h next inner, wrap_one E from sk h next inner =
  seal E (hop_rnd h) (with_body (outer_shell E (hop_uuid h) from (hop_alg h) (hop_did h) (hop_key h)) (ser_mediated {| md_next := next; md_payload := inner |})) sk (Some [hop_key h]).
Proof.
  intros E from sk h next inner. unfold wrap_one, set_body. rewrite parse_print by (apply rust_value_wf, mediated_value). cbn [oerr rbind].
  rewrite (value_of_canon (rt E 0) max_depth); [reflexivity|apply rust_canon; [apply mediated_value|apply mediated_stable]|].
  pose proof (mediated_depth (with_payload (mediated_new next) inner)). unfold max_depth. lia.
Qed.
Lemma wrap_did : forall E from sk h next inner text, wrap_one E from sk h next inner = Ok text -> hop_did h <> "".
Proof.
  intros E from sk h next inner text H EQ. rewrite wrap_ok in H. apply seal_ok in H. destruct H as [_ [H _]]. apply H. cbn [with_body m_did].
  rewrite EQ. rewrite outer_shell_did. reflexivity.
Qed.
Lemma shell_few : forall E uuid from a mediator mkey, few_custom (m_jwm (outer_shell E uuid from a mediator mkey)).
Proof.
  intros E uuid from a mediator mkey. unfold few_custom, outer_shell, as_jwe. rewrite set_to_filter.
  destruct mkey as [k|]; [|cbn [set_from with_did m_did dh_from dh_with_from]; destruct (resolve E from)]; destruct a; cbn; lia.
Qed.
(** What one mediator gets. *)
Lemma wrap_received : forall E from sk h next inner text msk spk, env_ok E -> crypto_ok E -> rand_ok (hop_rnd h) -> resolved_ids E ->
  rust_string (hop_uuid h) -> rust_string (hop_did h) -> rust_string next -> rust_string from ->
  wrap_one E from sk h next inner = Ok text -> String.length msk = 32 -> known_key E (hop_did h) (hop_key h) (x_pub E msk) -> known_key E from spk (x_pub E sk) ->
  exists f, (forall gpk, receive E text (Some msk) spk gpk = Ok f) /\ forwards (m_body f) next inner.
Proof.
  intros E from sk h next inner text msk spk HE HC HR HI U1 U2 U3 U4 H L HK HSK. pose proof (wrap_did _ _ _ _ _ _ _ H) as HM. rewrite wrap_ok in H.
  pose proof (outer_sendable E (hop_uuid h) from (hop_alg h) (hop_did h) (hop_key h) {| md_next := next; md_payload := inner |} HI U1 U4 U2 HM U3) as HSend.
  pose proof (outer_shell_did E (hop_uuid h) from (hop_alg h) (hop_did h) (hop_key h)) as HD.
  assert (HFil : filter non_empty [hop_did h] = [hop_did h]) by (cbn; unfold non_empty; destruct (String.eqb_spec (hop_did h) ""); [contradiction|reflexivity]). rewrite HFil in HD.
  destruct (outer_shell_rest E (hop_uuid h) from (hop_alg h) (hop_did h) (hop_key h)) as [R1 [R2 [R3 [R4 [R5 [R6 [R7 _]]]]]]].
  pose proof (shell_few E (hop_uuid h) from (hop_alg h) (hop_did h) (hop_key h)) as HF.
  revert HSend HD R5 HF H. generalize (outer_shell E (hop_uuid h) from (hop_alg h) (hop_did h) (hop_key h)). intros o HSend HD R5 HF H.
  set (p := with_body o (ser_mediated {| md_next := next; md_payload := inner |})) in *.
  assert (HA : avoids envelope_names (dh_other (m_did p))) by (cbn [p with_body m_did]; rewrite HD; intros k []).
  assert (HT : jh_typ (m_jwm p) <> DidCommJws) by (cbn [p with_body m_jwm]; rewrite R5; discriminate).
  assert (HFr : dh_from (m_did p) = Some from) by (cbn [p with_body m_did]; now rewrite HD).
  assert (HN : nth_error (dh_to (m_did p)) 0 = Some (hop_did h)) by (cbn [p with_body m_did]; now rewrite HD).
  destruct (seal_receive_jwe E (hop_rnd h) p sk (Some [hop_key h]) text 0 (hop_did h) msk spk from HE HC HR HSend HF HFr H HN L HK HSK (closed_first _ _ _ _ _ _))
    as [rs [G1 [_ [G2 G3]]]].
  eexists. split; [intros gpk; exact (receive_sealed_text E text msk spk gpk _ 3 HE (with_recipients_sendable E p rs HSend G1) HA HT G3 G2)|].
  apply ser_mediated_forwards.
Qed.
Lemma last_cons : forall A (a d : A) l, last (a :: l) d = last l a.
Proof. intros A a d l. revert a d. induction l as [|b l IH]; intros a d; [reflexivity|]. change (last (b :: l) d = last (b :: l) a). now rewrite !IH. Qed.
(** Sizes from below. *)
Lemma code_digits : forall c, printable c = true -> 2 <= String.length (print (jnat (code c))).
Proof. intros [[] [] [] [] [] [] [] []]; vm_compute; intros H; first [discriminate|lia]. Qed.
Lemma bytes_digits : forall s, sall printable s = true -> 3 * String.length s <= list_sum (map (fun v => String.length (print v) + 1) (bytes_json s)).
Proof.
  induction s as [|c s IH]; intros H; [cbn; lia|]. cbn [sall] in H. apply andb_true_iff in H. destruct H as [H1 H2]. specialize (IH H2).
  change (bytes_json (String c s)) with (jnat (code c) :: bytes_json s). rewrite map_cons. unfold list_sum in *.
  pose proof (code_digits c H1) as H. revert H. generalize (jnat (code c)). intros j H. cbn [fold_right String.length]. lia.
Qed.
Lemma mediated_digits : forall next inner, sall printable inner = true -> 3 * String.length inner <= String.length (print (ser_mediated {| md_next := next; md_payload := inner |})).
Proof.
  intros next inner H. unfold ser_mediated. cbn [md_next md_payload]. rewrite obj_size by discriminate. rewrite !sum_cons, sum_nil. unfold member_size at 2. cbn [fst snd].
  pose proof (bytes_digits inner H) as HB. destruct inner as [|c s]; [cbn [String.length]; lia|]. rewrite arr_size by discriminate. lia.
Qed.
Lemma wrap_growth : forall E from sk h next inner text, sall printable inner = true -> wrap_one (whole E) from sk h next inner = Ok text ->
  sall printable text = true /\ 4 * String.length inner <= String.length text.
Proof.
  intros E from sk h next inner text HP H. rewrite wrap_ok in H. pose proof (mediated_digits next inner HP) as HM.
  revert HM H. generalize (ser_mediated {| md_next := next; md_payload := inner |}). intros b HM.
  generalize (outer_shell (whole E) (hop_uuid h) from (hop_alg h) (hop_did h) (hop_key h)). intros o H.
  apply seal_text in H. destruct H as [a [rs [sh [c [HU [_ [_ [_ [_ [_ [_ [HC [HL16 ->]]]]]]]]]]]]].
  split; [apply print_printable, wf_num_wf, wf_ser_jwe|].
  assert (HSz : String.length (print b) <= String.length (message_json (with_recipients (with_body o b) (Some rs)))).
  { rewrite message_size. cbn [with_recipients with_body m_body]. assert (HB : String.length (print b) <= member_size ("body", b)) by (unfold member_size; cbn [fst snd]; lia). lia. }
  assert (HCl : String.length c = String.length (message_json (with_recipients (with_body o b) (Some rs))) + 16).
  { revert HC. apply encryptor_size; [| |exact HU]; [exact xc_same|exact gcm_same]. }
  revert HSz HCl. generalize (String.length (message_json (with_recipients (with_body o b) (Some rs)))). intros n HSz HCl. clear HC.
  unfold jwe_json, ser_jwe, sealed_env.
  cbn [je_protected je_unprotected je_recipient je_recipients je_ciphertext je_iv je_tag sopt].
  match goal with |- _ <= String.length (print (JObj ?l)) => assert (HNE : l <> []) by discriminate; rewrite (obj_size l HNE); clear HNE end.
  rewrite !sum_app, !sum_cons, !sum_nil.
  assert (P2 : 4 * String.length inner <= member_size ("ciphertext", jstr (b64_encode (take (String.length c - 16) c)))); [|lia].
  rewrite plain_member, b64_encode_length, take_length by lia. replace (String.length c - 16) with n by lia.
  assert (HQ : 4 * String.length inner <= (4 * n + 2) / 3) by (apply Nat.div_le_lower_bound; lia). lia.
Qed.
(** Success. *)
Lemma wrap_total : forall E from sk h next inner, crypto_ok E -> crypto_total E -> rand_ok (hop_rnd h) -> usable (hop_alg h) -> String.length sk = 32 -> hop_did h <> "" ->
  (exists key, known_key E (hop_did h) (hop_key h) key /\ 32 <= String.length key) -> exists text, wrap_one E from sk h next inner = Ok text.
Proof.
  intros E from sk h next inner HC HT HR HU HL HM HMK. rewrite wrap_ok.
  pose proof (outer_shell_did E (hop_uuid h) from (hop_alg h) (hop_did h) (hop_key h)) as HD.
  assert (HFil : filter non_empty [hop_did h] = [hop_did h]) by (cbn; unfold non_empty; destruct (String.eqb_spec (hop_did h) ""); [contradiction|reflexivity]). rewrite HFil in HD.
  destruct (outer_shell_rest E (hop_uuid h) from (hop_alg h) (hop_did h) (hop_key h)) as [_ [R2 [_ [_ [_ [_ [_ R8]]]]]]].
  apply (seal_total E (hop_rnd h) _ sk (Some [hop_key h]) (hop_alg h) HC HT HR HU).
  - exact (R8 HU).
  - exact HL.
  - cbn [with_body m_did]. rewrite HD. discriminate.
  - cbn [with_body m_flat_jwe]. rewrite R2. discriminate.
  - intros l Hl. apply some_inj in Hl. subst l. cbn [with_body m_did]. rewrite HD. reflexivity.
  - intros k dest Hk. cbn [with_body m_did] in Hk. rewrite HD in Hk. cbn [dh_with_from dh_with_to dh_to] in Hk. destruct k as [|k]; [|destruct k; discriminate].
    apply some_inj in Hk. subst dest. exact HMK.
Qed.

(** ** C79 *)

(** A mediator of a chain: what has to hold for it. *)
Definition hop_ok (E : env) (h : hop) (msk : string) : Prop :=
  rand_ok (hop_rnd h) /\ rust_string (hop_uuid h) /\ rust_string (hop_did h) /\ String.length msk = 32 /\ known_key E (hop_did h) (hop_key h) (x_pub E msk).

(** [routed_by] is the chain of one mediator around a sealed message. *)
Theorem C79_routed_by : forall E rnd1 rnd2 uuid m sk keys mediator mkey text, routed_by E rnd1 rnd2 uuid m sk keys mediator mkey = Ok text <->
  exists alg a next rest inner, jh_alg (m_jwm m) = Some alg /\ In (alg, a) wrap_table /\ dh_to (m_did m) = next :: rest /\ seal E rnd1 m sk keys = Ok inner /\
    onion E (or_empty (dh_from (m_did m))) sk [{| hop_did := mediator; hop_key := mkey; hop_alg := a; hop_uuid := uuid; hop_rnd := rnd2 |}] next inner = Ok text.
Proof.
  intros E rnd1 rnd2 uuid m sk keys mediator mkey text. cbn [onion]. split.
  - intros H. apply routed_ok in H. destruct H as [a [inner [next [rest [HU [HA [HT [HS [_ H]]]]]]]]]. exists (wrap_name a), a, next, rest, inner.
    split; [exact HA|]. split; [apply crypto_alg_of_table, crypto_alg_of_ok; now split|]. split; [exact HT|]. split; [exact HS|].
    rewrite wrap_ok. cbn [hop_did hop_key hop_alg hop_uuid hop_rnd]. rewrite H. reflexivity.
  - intros [alg [a [next [rest [inner [HA [HI [HT [HS H]]]]]]]]]. apply crypto_alg_of_table in HI. unfold routed_by, crypter_of, first_to.
    rewrite HA, HI, HT. cbn [rbind]. rewrite HS. cbn [rbind]. unfold wrap_one in H. cbn [hop_did hop_key hop_alg hop_uuid hop_rnd] in H.
    destruct (set_body _ _ _) as [o| |]; [|discriminate|discriminate]. cbn [rbind] in H |- *. destruct (seal E rnd2 o sk (Some [mkey])); [exact H|discriminate|discriminate].
Qed.
(** Whatever the number of mediators: each of them, in turn, opens what it is sent, and finds whom to send the rest to; the last one finds [inner], byte for byte. *)
Theorem C79_relayed : forall E from sk sender hops secrets next inner text, env_ok E -> crypto_ok E -> resolved_ids E -> rust_string from -> rust_string next ->
  known_key E from sender (x_pub E sk) -> Forall2 (hop_ok E) hops secrets -> onion E from sk hops next inner = Ok text ->
  relayed E sender (rev (combine (map hop_did hops) secrets)) (last (map hop_did hops) next) text next inner.
Proof.
  intros E from sk sender hops secrets next inner text HE HC HI U1 U2 HSK HF. revert next inner text U2.
  induction HF as [|h msk hops secrets [HR [V1 [V2 [L HK]]]] HF IH]; intros next inner text U2 H.
  - apply ok_inj in H. subst text. apply relayed_done.
  - cbn [onion] in H. destruct (wrap_one E from sk h next inner) as [t| |] eqn:EW; [|discriminate|discriminate]. cbn [rbind] in H.
    destruct (wrap_received E from sk h next inner t msk sender HE HC HR HI V1 V2 U2 U1 EW L HK HSK) as [f [F1 F2]].
    cbn [map combine rev]. rewrite last_cons. eapply relayed_snoc; [exact (IH (hop_did h) t text V2 H)|exact F1|exact F2].
Qed.
(** There is no other way: the same secrets lead to the same place and the same bytes. *)
Theorem C79_unique : forall E sender r did text dest1 inner1 dest2 inner2, relayed E sender r did text dest1 inner1 -> relayed E sender r did text dest2 inner2 ->
  dest1 = dest2 /\ inner1 = inner2.
Proof.
  intros E sender r did text dest1 inner1 dest2 inner2 H. revert dest2 inner2.
  induction H as [dest inner|did msk r text f next payload dest inner H1 H2 H3 IH]; intros dest2 inner2 G.
  - inversion G; subst. now split.
  - inversion G as [|did' msk' r' text' f' next' payload' d' i' G1 G2 G3]; subst. specialize (H1 None). rewrite (G1 None) in H1. apply ok_inj in H1. subst f'.
    destruct (C21_payload_unique _ _ _ _ _ H2 G2) as [-> ->]. now apply IH.
Qed.
(** The message in the innermost envelope arrives through any number of mediators. *)
Theorem C79_delivered : forall E from sk sender hops secrets rnd m keys inner text i dest rsk sender2, env_ok E -> crypto_ok E -> resolved_ids E ->
  rand_ok rnd -> sendable E m -> few_custom (m_jwm m) -> avoids envelope_names (dh_other (m_did m)) -> jh_typ (m_jwm m) <> DidCommJws -> dh_from (m_did m) = Some from ->
  seal E rnd m sk keys = Ok inner -> nth_error (dh_to (m_did m)) i = Some dest -> onion E from sk hops dest inner = Ok text ->
  Forall2 (hop_ok E) hops secrets -> String.length rsk = 32 ->
  known_key E dest (given_key keys i) (x_pub E rsk) -> known_key E from sender (x_pub E sk) -> known_key E from sender2 (x_pub E sk) -> others_closed E rnd m sk keys rsk i ->
  exists m', relayed E sender (rev (combine (map hop_did hops) secrets)) (last (map hop_did hops) dest) text dest inner /\
    (forall signing, receive E inner (Some rsk) sender2 signing = Ok m') /\ received m m'.
Proof.
  intros E from sk sender hops secrets rnd m keys inner text i dest rsk sender2 HE HC HI HR HS HF HA HTy HFr HSe HN HT HH L HK HSK HSK2 HB.
  assert (HIn : forall x, In x (did_strings (m_did m)) -> rust_string x).
  { pose proof (sd_rust E m HS) as HRm. apply rm_strings in HRm. unfold message_strings in HRm. rewrite Forall_forall in HRm.
    intros x Hx. apply HRm. apply in_or_app. right. apply in_or_app. now left. }
  assert (U1 : rust_string from) by (apply HIn; unfold did_strings; rewrite !in_app_iff; rewrite HFr; cbn; tauto).
  assert (U2 : rust_string dest) by (apply HIn; unfold did_strings; rewrite !in_app_iff; apply nth_error_In in HN; tauto).
  pose proof (C79_relayed E from sk sender hops secrets dest inner text HE HC HI U1 U2 HSK HH HT) as H1.
  destruct (seal_receive_jwe E rnd m sk keys inner i dest rsk sender2 from HE HC HR HS HF HFr HSe HN L HK HSK2 HB) as [rs [G1 [G4 [G2 G3]]]].
  destruct (C13_mixed_keys E rnd m sk keys inner i dest rsk sender2 None from HE HC HR HS HF HA HTy HFr HSe HN L HK HSK2 HB) as [m' [K1 K2]].
  exists m'. split; [exact H1|]. split; [|exact K2]. intros signing. rewrite <- K1.
  rewrite !(fun gpk => receive_sealed_text E inner rsk sender2 gpk _ 3 HE (with_recipients_sendable E m rs HS G1) HA HTy G3 G2). reflexivity.
Qed.
(** With good arguments chains of every length can be made. *)
Theorem C79_total : forall E from sk hops next inner, crypto_ok E -> crypto_total E -> String.length sk = 32 ->
  Forall (fun h => rand_ok (hop_rnd h) /\ hop_alg h <> A256CBC /\ hop_did h <> "" /\ exists key, known_key E (hop_did h) (hop_key h) key /\ 32 <= String.length key) hops ->
  exists text, onion E from sk hops next inner = Ok text.
Proof.
  intros E from sk hops next inner HC HT HL HF. revert next inner. induction HF as [|h hops [H1 [H2 [H3 H4]]] HF IH]; intros next inner; [now exists inner|].
  destruct (wrap_total E from sk h next inner HC HT H1 H2 HL H3 H4) as [t Ht]. destruct (IH (hop_did h) t) as [text HX]. exists text. cbn [onion]. rewrite Ht. exact HX.
Qed.
(** With the key agreement and the ciphers of the crate. *)
Theorem C79_real : forall E from sk sender hops secrets next inner text, orders_ok E -> resolved_ids E -> rust_string from -> rust_string next ->
  known_key E from sender (x25519_base sk) ->
  Forall2 (fun h msk => rand_ok (hop_rnd h) /\ rust_string (hop_uuid h) /\ rust_string (hop_did h) /\ String.length msk = 32 /\ known_key E (hop_did h) (hop_key h) (x25519_base msk)) hops secrets ->
  onion (whole E) from sk hops next inner = Ok text ->
  relayed (whole E) sender (rev (combine (map hop_did hops) secrets)) (last (map hop_did hops) next) text next inner.
Proof.
  intros E from sk sender hops secrets next inner text HO HI U1 U2 HSK HF HT. destruct (C69_lawful E HO) as [HE HC].
  exact (C79_relayed (whole E) from sk sender hops secrets next inner text HE HC HI U1 U2 HSK HF HT).
Qed.
(** The price: every mediator makes the text at least four times as long. *)
Theorem C79_growth : forall E from sk hops rnd m keys next inner text, seal (whole E) rnd m sk keys = Ok inner -> onion (whole E) from sk hops next inner = Ok text ->
  4 ^ List.length hops * String.length inner <= String.length text.
Proof.
  intros E from sk hops rnd m keys next inner text HS.
  assert (HP : sall printable inner = true).
  { apply seal_text in HS. destruct HS as [a [rs [sh [c [_ [_ [_ [_ [_ [_ [_ [_ [_ ->]]]]]]]]]]]]]. apply print_printable, wf_num_wf, wf_ser_jwe. }
  clear HS. revert next inner HP. induction hops as [|h hops IH]; intros next inner HP H.
  - apply ok_inj in H. subst text. cbn [List.length Nat.pow]. lia.
  - cbn [onion] in H. destruct (wrap_one (whole E) from sk h next inner) as [t| |] eqn:EW; [|discriminate|discriminate]. cbn [rbind] in H.
    destruct (wrap_growth E from sk h next inner t HP EW) as [H1 H2]. specialize (IH (hop_did h) t H1 H). cbn [List.length Nat.pow]. nia.
Qed.

(** ** Cases *)

(** Three mediators between Alice and Bob. *)
Definition ex_hop (n : string) (k : string) (a : crypto_algorithm) : hop :=
  {| hop_did := "did:toy:" ++ n; hop_key := Some k; hop_alg := a; hop_uuid := "urn:" ++ n; hop_rnd := ex_rand |}.
Definition ex_hops : list hop := [ex_hop "last" (srepeat 32 "l") XC20P; ex_hop "middle" (srepeat 32 "n") A256GCM; ex_hop "first" (srepeat 32 "f") XC20P].
Example C79_example : forall a, In a [XC20P; A256GCM] -> exists inner text m', seal toy ex_rand (ex_jwe a) alice_key (Some ex_keys) = Ok inner /\
  onion toy "did:toy:alice" alice_key ex_hops "did:toy:bob" inner = Ok text /\
  relayed toy (Some alice_key) [("did:toy:first", srepeat 32 "f"); ("did:toy:middle", srepeat 32 "n"); ("did:toy:last", srepeat 32 "l")] "did:toy:first" text "did:toy:bob" inner /\
  receive toy inner (Some bob_key) (Some alice_key) None = Ok m' /\ received (ex_jwe a) m'.
Proof.
  intros a HA. destruct (ex_seals a HA) as [inner HS]. exists inner.
  destruct (C79_total toy "did:toy:alice" alice_key ex_hops "did:toy:bob" inner toy_crypto toy_total (srepeat_length 32 _)) as [text HT].
  { repeat constructor; try apply ex_rand_ok; try discriminate; eexists; (split; [left; reflexivity|]); vm_compute; lia. }
  exists text.
  destruct (C79_delivered toy "did:toy:alice" alice_key (Some alice_key) ex_hops [srepeat 32 "l"; srepeat 32 "n"; srepeat 32 "f"] ex_rand (ex_jwe a) (Some ex_keys) inner text 0
    "did:toy:bob" bob_key (Some alice_key)) as [m' [H1 [H2 H3]]].
  - exact toy_env.
  - exact toy_crypto.
  - exact toy_ids.
  - exact ex_rand_ok.
  - apply ex_jwe_sendable.
  - apply ex_jwe_few.
  - exact ex_one_avoids.
  - apply ex_jwe_typ.
  - destruct HA as [<-|[<-|[]]]; reflexivity.
  - exact HS.
  - destruct HA as [<-|[<-|[]]]; reflexivity.
  - exact HT.
  - repeat constructor; try apply ex_rand_ok; left; reflexivity.
  - apply srepeat_length.
  - now left.
  - now left.
  - now left.
  - apply closed_first.
  - exists m'. split; [exact HS|]. split; [exact HT|]. split; [exact H1|]. split; [apply H2|exact H3].
Qed.
(** With the ciphers of the crate, one mediator. *)
Example C79_example_growth : forall a, In a [XC20P; A256GCM] -> exists inner h text, seal (whole toy) ex_rand (ex_jwe a) alice_key (Some ex_public) = Ok inner /\
  onion (whole toy) "did:toy:alice" alice_key [h] "did:toy:bob" inner = Ok text /\ 4 * String.length inner <= String.length text.
Proof.
  intros a HA. destruct (C72_example a HA) as [text [f [inner0 [m' [H _]]]]]. apply C79_routed_by in H. destruct H as [alg [b [next [rest [inner [_ [_ [H1 [H2 H3]]]]]]]]].
  assert (HN : next = "did:toy:bob") by (destruct HA as [<-|[<-|[]]]; injection H1 as <- _; reflexivity). subst next.
  assert (HF : or_empty (dh_from (m_did (ex_jwe a))) = "did:toy:alice") by (destruct HA as [<-|[<-|[]]]; reflexivity). rewrite HF in H3.
  exists inner. eexists. exists text. split; [exact H2|]. split; [exact H3|].
  pose proof (C79_growth toy "did:toy:alice" alice_key _ ex_rand (ex_jwe a) (Some ex_public) "did:toy:bob" inner text H2 H3) as HG. exact HG.
Qed.

Print Assumptions C79_routed_by.
Print Assumptions C79_relayed.
Print Assumptions C79_unique.
Print Assumptions C79_delivered.
Print Assumptions C79_total.
Print Assumptions C79_real.
Print Assumptions C79_growth.
