(** base64url against RFC 4648, enumerated names, and the shape of serialised messages. *)

From Coq Require Import Ascii String Arith NArith List Bool Permutation Sorted Lia.
From Verif Require Import Bytes BytesFacts Base64 Base64Facts Utf8 Json JsonFacts Value ValueFacts Types Serde SerdeFacts
  Message Envelope Spec SpecFacts DecodeFacts PlainFacts.
Import ListNotations.
Local Open Scope string_scope.

(** ** RFC 4648 *)

Definition sym_ok (n : nat) (c : ascii) : bool :=
  match String.get n b64_alphabet with Some d => Ascii.eqb d c | None => false end.
Lemma sym_ok_get : forall n c, sym_ok n c = true -> String.get n b64_alphabet = Some c.
Proof. intros n c H. unfold sym_ok in H. destruct (String.get n b64_alphabet); [|discriminate]. apply Ascii.eqb_eq in H. now subst. Qed.

Definition b8 (c : ascii) (i : nat) : bool := nth i (bits8 c) false.
Lemma bits8_b8 : forall c, bits8 c = [b8 c 0; b8 c 1; b8 c 2; b8 c 3; b8 c 4; b8 c 5; b8 c 6; b8 c 7].
Proof. intros [b0 b1 b2 b3 b4 b5 b6 b7]. reflexivity. Qed.

(** Each symbol depends on at most six bits: the arithmetic on a byte is expressed by its bits once per byte. *)
Definition bitsN (l : list bool) : N := N.of_nat (bits_value l).
Lemma code_div4 : forall a, N.eqb (code a / 4) (bitsN [b8 a 0; b8 a 1; b8 a 2; b8 a 3; b8 a 4; b8 a 5]) = true.
Proof. apply ascii_sweep. vm_compute. reflexivity. Qed.
Lemma code_mod4 : forall a, N.eqb (code a mod 4) (bitsN [b8 a 6; b8 a 7]) = true.
Proof. apply ascii_sweep. vm_compute. reflexivity. Qed.
Lemma code_div16 : forall a, N.eqb (code a / 16) (bitsN [b8 a 0; b8 a 1; b8 a 2; b8 a 3]) = true.
Proof. apply ascii_sweep. vm_compute. reflexivity. Qed.
Lemma code_mod16 : forall a, N.eqb (code a mod 16) (bitsN [b8 a 4; b8 a 5; b8 a 6; b8 a 7]) = true.
Proof. apply ascii_sweep. vm_compute. reflexivity. Qed.
Lemma code_div64 : forall a, N.eqb (code a / 64) (bitsN [b8 a 0; b8 a 1]) = true.
Proof. apply ascii_sweep. vm_compute. reflexivity. Qed.
Lemma code_mod64 : forall a, N.eqb (code a mod 64) (bitsN [b8 a 2; b8 a 3; b8 a 4; b8 a 5; b8 a 6; b8 a 7]) = true.
Proof. apply ascii_sweep. vm_compute. reflexivity. Qed.
Ltac by_bits := repeat match goal with |- context [b8 ?x ?i] => destruct (b8 x i) end; reflexivity.
Lemma enc_s1 : forall a, sym_ok (bits_value [b8 a 0; b8 a 1; b8 a 2; b8 a 3; b8 a 4; b8 a 5]) (enc6 (code a / 4)) = true.
Proof. intros a. rewrite (proj1 (N.eqb_eq _ _) (code_div4 a)). by_bits. Qed.
Lemma enc_s2 : forall a b, sym_ok (bits_value [b8 a 6; b8 a 7; b8 b 0; b8 b 1; b8 b 2; b8 b 3]) (enc6 ((code a mod 4) * 16 + code b / 16)) = true.
Proof. intros a b. rewrite (proj1 (N.eqb_eq _ _) (code_mod4 a)), (proj1 (N.eqb_eq _ _) (code_div16 b)). by_bits. Qed.
Lemma enc_s3 : forall a b, sym_ok (bits_value [b8 a 4; b8 a 5; b8 a 6; b8 a 7; b8 b 0; b8 b 1]) (enc6 ((code a mod 16) * 4 + code b / 64)) = true.
Proof. intros a b. rewrite (proj1 (N.eqb_eq _ _) (code_mod16 a)), (proj1 (N.eqb_eq _ _) (code_div64 b)). by_bits. Qed.
Lemma enc_s4 : forall a, sym_ok (bits_value [b8 a 2; b8 a 3; b8 a 4; b8 a 5; b8 a 6; b8 a 7]) (enc6 (code a mod 64)) = true.
Proof. intros a. rewrite (proj1 (N.eqb_eq _ _) (code_mod64 a)). by_bits. Qed.
Lemma enc_e1 : forall a, sym_ok (bits_value [b8 a 6; b8 a 7; false; false; false; false]) (enc6 ((code a mod 4) * 16)) = true.
Proof. intros a. rewrite (proj1 (N.eqb_eq _ _) (code_mod4 a)). by_bits. Qed.
Lemma enc_e2 : forall a, sym_ok (bits_value [b8 a 4; b8 a 5; b8 a 6; b8 a 7; false; false]) (enc6 ((code a mod 16) * 4)) = true.
Proof. intros a. rewrite (proj1 (N.eqb_eq _ _) (code_mod16 a)). by_bits. Qed.

Lemma b64_rfc : forall s, rfc4648 s (b64_encode s).
Proof.
  apply string_ind3.
  - exists []. split; constructor.
  - intros a. eexists. split.
    + cbn [bit_string]. rewrite bits8_b8, app_nil_r. apply sx_full. apply sx_last. cbn. lia.
    + cbn [b64_encode list_ascii_of_string]. repeat constructor; apply sym_ok_get; [apply enc_s1|apply enc_e1].
  - intros a b. eexists. split.
    + cbn [bit_string]. rewrite !bits8_b8, app_nil_r. cbn [app]. apply sx_full. apply sx_full. apply sx_last. cbn. lia.
    + cbn [b64_encode list_ascii_of_string]. repeat constructor; apply sym_ok_get; [apply enc_s1|apply enc_s2|apply enc_e2].
  - intros a b c r [n [H1 H2]]. eexists. split.
    + cbn [bit_string]. rewrite !bits8_b8. cbn [app]. apply sx_full. apply sx_full. apply sx_full. apply sx_full. exact H1.
    + cbn [b64_encode list_ascii_of_string]. repeat (constructor; [apply sym_ok_get|]); [apply enc_s1|apply enc_s2|apply enc_s3|apply enc_s4|exact H2].
Qed.
Lemma sextets_fun : forall l a, sextets l a -> forall b, sextets l b -> a = b.
Proof.
  intros l a H. induction H as [|x0 x1 x2 x3 x4 x5 l n H IH|l HL]; intros b' H'.
  - inversion H' as [|? ? ? ? ? ? ? ? H0|? HL']; [reflexivity|]. cbn in HL'. lia.
  - inversion H' as [|? ? ? ? ? ? ? n' H0|? HL']; subst; [f_equal; auto|]. cbn in HL'. lia.
  - inversion H' as [|? ? ? ? ? ? ? n' H0|? HL']; subst; [cbn in HL; lia|cbn in HL; lia|reflexivity].
Qed.
Lemma rfc_fun : forall s a b, rfc4648 s a -> rfc4648 s b -> a = b.
Proof.
  intros s a b [n [H1 H2]] [n' [H1' H2']]. rewrite (sextets_fun _ _ H1' _ H1) in H2'. clear H1 H1'.
  rewrite <- (string_of_list_ascii_of_string a), <- (string_of_list_ascii_of_string b). f_equal.
  revert H2'. generalize (list_ascii_of_string b). induction H2 as [|i c l l' HI H2 IH]; intros lb H; inversion H; subst; [reflexivity|].
  f_equal; [congruence|]. auto.
Qed.

(** ** Names *)

Lemma enum_table : forall bf A (name : A -> string) (l : list A) (table : list (string * A)),
  table = map (fun a => (name a, a)) l -> NoDup (map name l) ->
  forall e s t, de_enum bf name l (JStr e s) = Some t <-> In (s, t) table.
Proof.
  intros bf A name l table -> HD e s t. cbn [de_enum]. unfold find_name. split.
  - intros H. apply find_some in H. destruct H as [H1 H2]. apply String.eqb_eq in H2. subst s. apply in_map_iff. now exists t.
  - intros H. apply in_map_iff in H. destruct H as [x [E H]]. injection E as <- <-. induction l as [|y l IH]; [destruct H|].
    cbn [find]. cbn in HD. inversion HD as [|? ? HN HD']; subst. destruct H as [->|H]; [now rewrite String.eqb_refl|].
    destruct (String.eqb_spec (name y) (name x)) as [E|_]; [|auto]. exfalso. apply HN. rewrite E. now apply in_map.
Qed.
Ltac nodup := repeat (constructor; [cbn; intros G; repeat (destruct G as [G|G]; [discriminate|]); exact G|]); constructor.
Lemma message_type_decode : forall {bf} e s t, de_message_type bf (JStr e s) = Some t <-> In (s, t) message_type_table.
Proof. intros bf. apply enum_table; [reflexivity|nodup]. Qed.
Lemma key_ops_decode : forall {bf} e s t, de_key_ops bf (JStr e s) = Some t <-> In (s, t) key_ops_table.
Proof. intros bf. apply enum_table; [reflexivity|nodup]. Qed.
Lemma key_algorithm_decode : forall {bf} e s t, de_key_algorithm bf (JStr e s) = Some t <-> In (s, t) key_algorithm_table.
Proof. intros bf. apply enum_table; [reflexivity|nodup]. Qed.

(** ** Serialised messages *)

Lemma no_control_printable : forall s, sall printable s = true -> no_control s.
Proof. induction s as [|c s IH]; cbn; [trivial|]. intros H. apply andb_true_iff in H. destruct H as [H1 H2]. split; [now apply N.leb_le in H1|auto]. Qed.

Lemma rust_message_wf : forall m, rust_message m -> wf_json (ser_message m).
Proof. intros m H. apply wf_ser_message. apply rust_value_wf. apply (rm_body _ H). Qed.
Lemma raw_json_text : forall m, rust_message m ->
  parse (as_raw_json m) = Some (JObj (message_entries m)) /\ rust_string (as_raw_json m) /\ no_control (as_raw_json m).
Proof.
  intros m H. pose proof (rust_message_wf m H) as HW. split; [|split].
  - rewrite <- ser_message_entries. unfold as_raw_json, message_json. now apply parse_print.
  - unfold rust_string, as_raw_json, message_json. apply print_utf8; [exact HW|]. apply utf8_ser_message. apply (rm_strings _ H).
  - apply no_control_printable. apply print_printable. now apply wf_num_wf.
Qed.
Lemma in_smap : forall k j m, In (k, j) (smap m) <-> exists v, In (k, v) m /\ j = JStr (needs_escape v) v.
Proof.
  intros k j m. unfold smap. rewrite in_map_iff. split.
  - intros [[k' v] [E H]]. cbn in E. injection E as <- <-. exists v. now split.
  - intros [v [H ->]]. exists (k, v). now split.
Qed.
Lemma didcomm_other_entries : forall d k v, In (k, v) (dh_other d) -> In (k, JStr (needs_escape v) v) (didcomm_entries d).
Proof. intros d k v H. unfold didcomm_entries. repeat (apply in_or_app; right). apply in_smap. exists v. now split. Qed.
Lemma message_entry_kinds : forall m k j, In (k, j) (message_entries m) ->
  In k header_names \/ exists v, In (k, v) (dh_other (m_did m)) /\ j = JStr (needs_escape v) v.
Proof.
  intros m k j H.
  assert (G : forall (a b : list (string * json)), (In (k, j) (a ++ b)%list -> In (k, j) a \/ In (k, j) b)) by (intros; now apply in_app_or).
  assert (HK : forall es names, Forall (fun x => In x names) (keys es) -> incl names header_names -> In (k, j) es -> In k header_names).
  { intros es names F I HI. rewrite Forall_forall in F. apply I. apply F. unfold keys. apply in_map_iff. now exists (k, j). }
  unfold message_entries in H. apply G in H. destruct H as [H|H].
  { left. eapply HK; [apply keys_jwm_entries| |exact H]. intros x Hx. apply (proj1 header_names_incl). unfold msg_reserved.
    apply in_or_app. right. apply in_or_app. now left. }
  apply G in H. destruct H as [H|H].
  { unfold didcomm_entries in H. rewrite !app_assoc in H. apply G in H. destruct H as [H|H].
    - left. assert (HI : In (k, j) (didcomm_entries (dh_with_other (m_did m) []))).
      { unfold didcomm_entries. rewrite !app_assoc. apply in_or_app. left. exact H. }
      pose proof (keys_didcomm_entries (dh_with_other (m_did m) [])) as HK2. rewrite Forall_forall in HK2.
      assert (Hk : In k (keys (didcomm_entries (dh_with_other (m_did m) [])))) by (unfold keys; apply in_map_iff; now exists (k, j)).
      apply HK2 in Hk. destruct Hk as [Hk|[]]. apply (proj1 header_names_incl). unfold msg_reserved.
      apply in_or_app. right. apply in_or_app. now right.
    - right. now apply in_smap. }
  left. assert (Hk : forall es, In (k, j) es -> In k (keys es)) by (intros es HI; unfold keys; apply in_map_iff; now exists (k, j)).
  apply G in H. destruct H as [H|H].
  { pose proof (keys_sopt _ "recipients" (fun l => JArr (map ser_recipient l)) (m_recipients m)) as HS.
    rewrite Forall_forall in HS. apply Hk, HS in H. subst k. cbn. tauto. }
  apply G in H. destruct H as [H|H].
  { apply Hk in H. cbn in H. destruct H as [<-|[]]. cbn. tauto. }
  pose proof (keys_svec _ "attachments" ser_attachment (m_attachments m)) as HS. rewrite Forall_forall in HS. apply Hk, HS in H. subst k. cbn. tauto.
Qed.
Lemma message_known_entries : forall m,
  In ("id", JStr (needs_escape (dh_id (m_did m))) (dh_id (m_did m))) (message_entries m) /\
  In ("type", JStr (needs_escape (dh_type (m_did m))) (dh_type (m_did m))) (message_entries m) /\
  In ("body", m_body m) (message_entries m) /\
  (forall k v, In (k, v) (dh_other (m_did m)) -> In (k, JStr (needs_escape v) v) (message_entries m)).
Proof.
  intros m. unfold message_entries. repeat split.
  - apply in_or_app. right. apply in_or_app. left. unfold didcomm_entries. apply in_or_app. left. now left.
  - apply in_or_app. right. apply in_or_app. left. unfold didcomm_entries. do 3 (apply in_or_app; right). apply in_or_app. left. now left.
  - do 3 (apply in_or_app; right). apply in_or_app. left. now left.
  - intros k v H. apply in_or_app. right. apply in_or_app. left. now apply didcomm_other_entries.
Qed.
Lemma raw_json_inj : forall E m m', env_ok E -> sendable E m -> sendable E m' -> as_raw_json m = as_raw_json m' -> same_message m m'.
Proof.
  intros E m m' HE H H' HT. pose proof (sendable_from_str E 9 m H) as G. pose proof (sendable_from_str E 9 m' H') as G'.
  unfold as_raw_json in HT. rewrite HT in G. rewrite G in G'. apply some_inj in G'.
  eapply same_message_trans; [apply (re_message_same E 9); exact HE|]. rewrite G'.
  apply same_message_sym. apply (re_message_same E 9); exact HE.
Qed.
