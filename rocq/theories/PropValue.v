(** Properties C03, C04, C36, C42, C44: bodies, base64url, JSON text, names. *)

From Coq Require Import Ascii String Arith NArith List Bool Permutation Sorted Lia.
From Verif Require Import Bytes BytesFacts Base64 Base64Facts Utf8 Json JsonFacts SpecJson GrammarFacts Value ValueFacts Types Serde SerdeFacts Message Envelope
  Spec SpecFacts CryptoLaws Examples BodyFacts CodecFacts PlainFacts PlainFacts2.
Import ListNotations.
Local Open Scope string_scope.

(** ** C03 *)

(** [body] succeeds exactly for JSON documents nested at most 127 deep whose numbers can be read; the new body is what the
    document denotes and nothing else in the message changes. *)
Theorem C03_body_reads : forall R m t m', set_body R m t = Ok m' <->
  exists j v, document t j /\ nested 127 j /\ reads R j v /\
    m' = {| m_jwm := m_jwm m; m_did := m_did m; m_recipients := m_recipients m; m_body := v;
            m_flat_jwe := m_flat_jwe m; m_flat_jws := m_flat_jws m; m_attachments := m_attachments m |}.
Proof.
  intros R m t m'. rewrite set_body_iff. split; intros (j & v & H & H'); exists j, v; (split; [now apply document_iff|exact H']).
Qed.

(** Otherwise it is a serialisation error. *)
Theorem C03_body_rejects : forall R m t, (forall m', set_body R m t <> Ok m') -> set_body R m t = Err ESerde.
Proof. exact set_body_err. Qed.

(** A document denotes at most one value. *)
Theorem C03_reads_functional : forall R j v w, reads R j v -> reads R j w -> v = w.
Proof. exact reads_fun. Qed.

(** The text given back by [get_body] is accepted again and is its own canonical form. *)
Theorem C03_get_body_canonical : forall E k m t m' m2, env_ok E -> set_body (rt E k) m t = Ok m' -> stable (rt E 0) (m_body m') -> nested 127 (m_body m') ->
  exists m2', set_body (rt E k) m2 (get_body m') = Ok m2' /\ m_body m2' = m_body m' /\ get_body m2' = get_body m'.
Proof.
  intros E k m t m' m2 HE H HS HN. exists (with_body m2 (m_body m')). split; [|split; reflexivity].
  apply (set_body_again (rt E k) m t m' (env_drt E k HE) H); [now apply (stable_rt E 0)|exact HN].
Qed.

(** Bodies without floats and without the reserved name are stable, so for them nothing is assumed about number formatting. *)
Theorem integers_stable : forall R v, rust_value v -> integers_only v -> ordinary v -> stable R v.
Proof. exact integers_stable_fact. Qed.
Theorem C03_integer_documents : forall E k m t m' m2 j, env_ok E -> set_body (rt E k) m t = Ok m' -> document t j -> integers_only j -> ordinary j ->
  exists m2', set_body (rt E k) m2 (get_body m') = Ok m2' /\ m_body m2' = m_body m' /\ get_body m2' = get_body m'.
Proof.
  intros E k m t m' m2 j HE H HP HI HO. apply document_iff in HP. pose proof H as H'. apply set_body_iff in H'.
  destruct H' as [j' [v [HP' [HN [HR ->]]]]]. assert (j' = j) by congruence. subst j'. pose proof (parse_num_wf _ _ HP) as HW.
  destruct (reads_ordinary (rt E k) j v HW HO HR) as [HOV HNV]. eapply C03_get_body_canonical; [exact HE|exact H| |]; cbn [m_body with_body].
  - apply integers_stable; [apply (reads_rust (rt E k) j v (env_drt E k HE) HW HR)|apply (reads_integers (rt E k) j v HO HI HR)|exact HOV].
  - now apply HNV.
Qed.

(** Duplicate and unsorted names, escapes, redundant white space, a 64-bit integer. *)
Example C03_example :
  exists m', set_body (rt toy 3) ex_small " { ""b"" : 1 , ""a"":[ -5, 18446744073709551615, 2.50 ] , ""b"" : ""A\/"" } " = Ok m' /\
    get_body m' = "{""a"":[-5,18446744073709551615,2.50],""b"":""A/""}" /\ stable (rt toy 0) (m_body m') /\ nested 127 (m_body m').
Proof.
  eexists. split; [vm_compute; reflexivity|]. split; [vm_compute; reflexivity|].
  split; [cbn; stable_val|apply nested_depth; apply Nat.leb_le; vm_compute; reflexivity].
Qed.
Example C03_example_rejects : set_body (rt toy 0) ex_small "{""a"":01}" = Err ESerde.
Proof. vm_compute. reflexivity. Qed.
Example C03_example_integers : exists j, document "{""x"":[1,-2],""y"":null}" j /\ integers_only j /\ ordinary j.
Proof.
  eexists. split; [apply document_iff; vm_compute; reflexivity|]. split; [|ordinary_val]. apply io_obj. intros kv H. each H; [|apply io_null].
  apply io_arr. intros x H. each H; apply io_num; [left; exists 1%N|right; exists 2%N]; (split; [vm_compute; repeat split; congruence|reflexivity]).
Qed.

(** ** C04 *)

(** Deeper documents are rejected. *)
Theorem C04_too_deep : forall R m t j, document t j -> ~ nested 127 j -> set_body R m t = Err ESerde.
Proof.
  intros R m t j HP HN. apply document_iff in HP. apply set_body_err. intros m' H. apply set_body_iff in H. destruct H as [j' [v [HP' [HN' _]]]]. congruence.
Qed.
(** A body that uses all 127 levels makes a message that nobody can receive: the message object is one more level. *)
Theorem C04_deep_body_lost : forall E m sk pk spk, rust_message m -> avoids envelope_names (dh_other (m_did m)) ->
  ~ nested 126 (m_body m) -> receive E (as_raw_json m) sk pk spk = Err ESerde.
Proof. intros E m sk pk spk HR HA HD. apply unreadable_receive; try assumption. now apply deep_body_unreadable. Qed.
(** Up to 126 levels the message is received (this is C01; only the nesting condition is shown here). *)
Theorem C04_shallow_body_received : forall E m sk pk spk, env_ok E -> sendable E m -> nested 126 (m_body m) ->
  jh_typ (m_jwm m) <> DidCommJwe -> jh_typ (m_jwm m) <> DidCommJws -> avoids envelope_names (dh_other (m_did m)) ->
  exists m', receive E (as_raw_json m) sk pk spk = Ok m' /\ m_body m' = m_body m.
Proof.
  intros E m sk pk spk HE HS HN N1 N2 HA. exists (re_message (rt E 9) m). split; [|reflexivity]. apply receive_plain; [exact HS|now split|exact HA].
Qed.

Fixpoint arrays (n : nat) : json := match n with O => JNull | S n' => JArr [arrays n'] end.
Lemma arrays_depth : forall n, depth (arrays n) = n.
Proof. induction n as [|n IH]; [reflexivity|]. cbn. rewrite IH. lia. Qed.
(** 127 nested arrays are accepted by [body] and the result falls under the theorem; 128 are not accepted. *)
Example C04_example : exists m, set_body (rt toy 0) ex_small (print (arrays 127)) = Ok m /\ rust_message m /\
  ~ nested 126 (m_body m) /\ receive toy (as_raw_json m) None None None = Err ESerde.
Proof.
  exists (with_body ex_small (arrays 127)). split; [vm_compute; reflexivity|].
  assert (HR : rust_message (with_body ex_small (arrays 127))).
  { destruct (sd_rust _ _ ex_small_sendable) as [R1 R2 R3 R4 R5 R6 R7 R8 R9 R10]. constructor; try assumption.
    - match goal with |- Forall _ ?l => let l' := eval vm_compute in l in change l with l' end. forall_tac str_tac.
    - cbn [m_body with_body]. generalize 127. induction n as [|n IH]; [constructor|]. cbn [arrays]. constructor. intros x [<-|[]]. exact IH. }
  assert (HN : ~ nested 126 (m_body (with_body ex_small (arrays 127)))).
  { intros H. apply nested_depth in H. cbn [m_body with_body] in H. rewrite arrays_depth in H. lia. }
  split; [exact HR|]. split; [exact HN|]. apply C04_deep_body_lost; [exact HR|exact ex_small_free|exact HN].
Qed.
Example C04_example_128 : set_body (rt toy 0) ex_small (print (arrays 128)) = Err ESerde.
Proof. vm_compute. reflexivity. Qed.

(** ** C36 *)

(** The encoder follows RFC 4648 bit by bit. *)
Theorem C36_encode_rfc : forall s t, b64_encode s = t <-> rfc4648 s t.
Proof. intros s t. split; [intros <-; apply b64_rfc|]. intros H. eapply rfc_fun; [apply b64_rfc|exact H]. Qed.
Theorem C36_decode_encode : forall s, b64_decode (b64_encode s) = Some s.
Proof. exact b64_decode_encode. Qed.
Theorem C36_encode_injective : forall a b, b64_encode a = b64_encode b -> a = b.
Proof. exact b64_encode_inj. Qed.
(** Trailing padding. *)
Fixpoint equal_signs (n : nat) : string := match n with O => "" | S n' => String "=" (equal_signs n') end.
(** Whatever is accepted is the encoding of the result followed by at most two padding characters. *)
Theorem C36_decode_only_encodings : forall t s, b64_decode t = Some s -> exists n, n <= 2 /\ t = b64_encode s ++ equal_signs n.
Proof.
  assert (ET : forall c, Ascii.eqb c "=" = true -> c = "="%char) by (intros c H; now apply Ascii.eqb_eq in H).
  apply (string_ind4 (fun t => forall s, b64_decode t = Some s -> exists n, n <= 2 /\ t = b64_encode s ++ equal_signs n)).
  - intros s H. injection H as <-. exists 0. now split; [lia|].
  - intros a s H. discriminate.
  - intros a b s H. cbn [b64_decode] in H. apply dec_two_inv in H. exists 0. split; [lia|]. cbn. now rewrite H, sapp_nil_r.
  - intros a b c s H. cbn [b64_decode] in H. destruct (Ascii.eqb c "=") eqn:Ec.
    + apply ET in Ec. subst c. apply dec_two_inv in H. exists 1. split; [lia|]. now rewrite <- H.
    + apply dec_three_inv in H. exists 0. split; [lia|]. cbn. now rewrite H, sapp_nil_r.
  - intros a b c d r IH s H.
    assert (HH : (exists u v w x t', dec6 a = Some u /\ dec6 b = Some v /\ dec6 c = Some w /\ dec6 d = Some x /\ b64_decode r = Some t' /\
                   s = String (chr (u * 4 + v / 16)) (String (chr ((v mod 16) * 16 + w / 4)) (String (chr ((w mod 4) * 64 + x)) t')))
               \/ (r = "" /\ d = "="%char /\ (if Ascii.eqb c "=" then dec_two a b else dec_three a b c) = Some s)).
    { cbn [b64_decode] in H. destruct (dec6 a) as [u|] eqn:Ea, (dec6 b) as [v|] eqn:Eb, (dec6 c) as [w|] eqn:Ecc, (dec6 d) as [x|] eqn:Ed;
        try (destruct r; [|discriminate]; destruct (Ascii.eqb d "=") eqn:Edd; [|discriminate]; apply ET in Edd; subst d; right; repeat split; exact H).
      destruct (b64_decode r) as [t'|] eqn:Er; [|discriminate]. apply some_inj in H. left. exists u, v, w, x, t'. repeat split; auto. }
    destruct HH as [[u [v [w [x [t' [Ea [Eb [Ecc [Ed [Er ->]]]]]]]]]]|[-> [-> HH]]].
    + destruct (IH _ Er) as [n [Hn ->]]. exists n. split; [exact Hn|].
      pose proof (b64_decode_inv (String a (String b (String c (String d (b64_encode t'))))) (String (chr (u * 4 + v / 16)) (String (chr ((v mod 16) * 16 + w / 4)) (String (chr ((w mod 4) * 64 + x)) t')))) as HI.
      assert (HD : b64_decode (String a (String b (String c (String d (b64_encode t'))))) = Some (String (chr (u * 4 + v / 16)) (String (chr ((v mod 16) * 16 + w / 4)) (String (chr ((w mod 4) * 64 + x)) t')))).
      { cbn [b64_decode]. rewrite Ea, Eb, Ecc, Ed, b64_decode_encode. reflexivity. }
      specialize (HI HD). rewrite (unpad_one a), (unpad_one b), (unpad_one c), (unpad_one d), unpad_enc in HI; try (eapply dec6_npad; eassumption).
      rewrite <- HI. reflexivity.
    + destruct (Ascii.eqb c "=") eqn:Ec.
      * apply ET in Ec. subst c. apply dec_two_inv in HH. exists 2. split; [lia|]. now rewrite <- HH.
      * apply dec_three_inv in HH. exists 1. split; [lia|]. now rewrite <- HH.
Qed.
Example C36_example : rfc4648 "abcd" "YWJjZA" /\ b64_decode "YWJjZA==" = Some "abcd" /\ b64_decode "YWJjZB" = None.
Proof. repeat split; try (vm_compute; reflexivity). apply C36_encode_rfc. vm_compute. reflexivity. Qed.

(** ** C42 *)

(** Serialised messages are UTF-8 without raw control characters and parse as one object whose members are exactly the known
    ones and one per custom header, with the values they were given: no string content can add or change a member. *)
Theorem C42_raw_json : forall m, rust_message m ->
  utf8_text (as_raw_json m) /\ no_control (as_raw_json m) /\
  exists es, document (as_raw_json m) (JObj es) /\
    In ("id", JStr (needs_escape (dh_id (m_did m))) (dh_id (m_did m))) es /\
    In ("type", JStr (needs_escape (dh_type (m_did m))) (dh_type (m_did m))) es /\
    In ("body", m_body m) es /\
    (forall k v, In (k, v) (dh_other (m_did m)) -> In (k, JStr (needs_escape v) v) es) /\
    (forall k j, In (k, j) es -> In k header_names \/ exists v, In (k, v) (dh_other (m_did m)) /\ j = JStr (needs_escape v) v).
Proof.
  intros m H. destruct (raw_json_text m H) as [HP [HU HC]]. apply document_iff in HP. split; [now apply utf8_iff|]. split; [exact HC|]. exists (message_entries m).
  destruct (message_known_entries m) as [K1 [K2 [K3 K4]]]. repeat (split; [assumption|]). apply message_entry_kinds.
Qed.
(** Bodies alone. *)
Theorem C42_get_body : forall m, rust_value (m_body m) -> Forall rust_string (json_strings (m_body m)) ->
  utf8_text (get_body m) /\ no_control (get_body m) /\ document (get_body m) (m_body m).
Proof.
  intros m HV HS. pose proof (rust_value_wf _ HV) as HW. split; [|split].
  - apply utf8_iff. unfold get_body. apply print_utf8; [exact HW|]. now apply json_strings_utf8.
  - apply no_control_printable. apply print_printable. now apply wf_num_wf.
  - apply document_iff. now apply parse_print.
Qed.
(** Different messages have different texts. *)
Theorem C42_raw_json_injective : forall E m m', env_ok E -> sendable E m -> sendable E m' -> as_raw_json m = as_raw_json m' -> same_message m m'.
Proof. exact raw_json_inj. Qed.
Example C42_example : exists es, document (as_raw_json ex_plain) (JObj es) /\ In ("lang", JStr true "de ""\") es.
Proof.
  destruct (C42_raw_json ex_plain (sd_rust _ _ ex_plain_sendable)) as [_ [_ [es [HP [_ [_ [_ [HO _]]]]]]]]. exists es. split; [exact HP|].
  apply (HO "lang" "de ""\"). now left.
Qed.

(** ** C44 *)

Theorem C44_message_type : forall bf e s t, de_message_type bf (JStr e s) = Some t <-> In (s, t) message_type_table.
Proof. exact @message_type_decode. Qed.
Theorem C44_key_ops : forall bf e s t, de_key_ops bf (JStr e s) = Some t <-> In (s, t) key_ops_table.
Proof. exact @key_ops_decode. Qed.
Theorem C44_key_algorithm : forall bf e s t, de_key_algorithm bf (JStr e s) = Some t <-> In (s, t) key_algorithm_table.
Proof. exact @key_algorithm_decode. Qed.
(** Encoding uses the same tables, and they are injective in both directions. *)
Theorem C44_names : (forall t, In (message_type_name t, t) message_type_table) /\ (forall k, In (key_ops_name k, k) key_ops_table) /\
  (forall a, In (key_algorithm_name a, a) key_algorithm_table) /\
  NoDup (map fst message_type_table) /\ NoDup (map fst key_ops_table) /\ NoDup (map fst key_algorithm_table) /\
  NoDup (map snd message_type_table) /\ NoDup (map snd key_ops_table) /\ NoDup (map snd key_algorithm_table).
Proof.
  repeat split; try (intros []; cbn; tauto); cbn;
    repeat (apply NoDup_cons; [cbn; intros G; repeat (destruct G as [G|G]; [discriminate|]); exact G|]); apply NoDup_nil.
Qed.
Example C44_example : de_message_type true (JStr true "application/didcomm-signed+json") = Some DidCommJws /\ de_key_algorithm false (JStr false "es256") = None.
Proof. split; reflexivity. Qed.

Print Assumptions C03_body_reads.
Print Assumptions C03_body_rejects.
Print Assumptions C03_reads_functional.
Print Assumptions C03_get_body_canonical.
Print Assumptions C03_integer_documents.
Print Assumptions C04_too_deep.
Print Assumptions C04_deep_body_lost.
Print Assumptions C04_shallow_body_received.
Print Assumptions C36_encode_rfc.
Print Assumptions C36_decode_encode.
Print Assumptions C36_encode_injective.
Print Assumptions C36_decode_only_encodings.
Print Assumptions C42_raw_json.
Print Assumptions C42_get_body.
Print Assumptions C42_raw_json_injective.
Print Assumptions C44_message_type.
Print Assumptions C44_key_ops.
Print Assumptions C44_key_algorithm.
Print Assumptions C44_names.
