(** Headers inside envelopes: decoding what was encoded, and the text of signed envelopes. *)

From Coq Require Import Ascii String Arith NArith List Bool Permutation Sorted Lia.
From Verif Require Import Bytes BytesFacts Base64 Base64Facts Utf8 Utf8Facts Json JsonFacts Value ValueFacts Types Serde SerdeFacts
  Message Envelope Spec SpecFacts DecodeFacts PlainFacts SpecSign.
Import ListNotations.
Local Open Scope string_scope.

Lemma b64_utf8 : forall s, utf8_valid (b64_encode s) = true.
Proof.
  intros s. apply utf8_ascii. pose proof (b64_encode_alphabet s) as H. revert H. generalize (b64_encode s).
  induction s0 as [|c t IH]; intros H; [reflexivity|]. cbn [sall] in *. apply andb_true_iff in H. destruct H as [Hc Ht]. rewrite (IH Ht), andb_true_r.
  pose proof (ascii_sweep (fun c => negb (b64_char c) || is_ascii c) ltac:(vm_compute; reflexivity) c) as Hs.
  cbv beta in Hs. rewrite Hc in Hs. exact Hs.
Qed.

Lemma perm_short : forall A (l l' : list A), Permutation l l' -> List.length l' <= 1 -> l = l'.
Proof.
  intros A l l' H HL. destruct l' as [|x [|y l']].
  - now apply Permutation_sym, Permutation_nil in H.
  - now apply Permutation_sym, Permutation_length_1_inv in H.
  - cbn in HL. lia.
Qed.
Lemma re_jwk_few : forall R k, drt_ok R -> List.length (jk_other k) <= 1 -> re_jwk R k = k.
Proof. intros R k [_ HR] H. destruct k as [x1 x2 x3 x4 x5 x6 x7 x8]. unfold re_jwk. cbn in *. f_equal. apply perm_short; [apply HR|exact H]. Qed.
Lemma re_jwm_few : forall R h, drt_ok R -> few_custom h -> re_jwm R h = h.
Proof.
  intros R h HR [H1 H2]. destruct h as [x1 x2 x3 x4 x5 x6 x7 x8 x9]. unfold re_jwm. cbn in *. f_equal.
  - destruct x7; [|reflexivity]. cbn in *. f_equal. now apply re_jwk_few.
  - destruct x8; [|reflexivity]. cbn in *. f_equal. now apply re_jwk_few.
Qed.

Definition good_header (h : jwm_header) : Prop := rust_header h /\ header_plain h.
Lemma good_header_ok : forall h, good_header h -> jwm_ok h /\ jutf8 (ser_jwm h).
Proof. intros h [[H1 [H2 H3]] H4]. split; [now apply jwm_ok_intro|now apply utf8_ser_jwm]. Qed.
Lemma default_header : good_header jwm_default.
Proof. split; [split; [constructor|split; exact I]|split; exact I]. Qed.
Lemma sendable_header : forall E m, sendable E m -> good_header (m_jwm m).
Proof.
  intros E m [[R1 R2 R3 R4 R5 R6 R7 R8 R9 R10] S2 S3 S4 S5 S6 S7]. split; [|exact S4]. split; [|now split].
  unfold message_strings in R1. now apply Forall_app in R1.
Qed.
Lemma with_jwm_sendable : forall E m h, sendable E m -> good_header h -> sendable E (with_jwm m h).
Proof.
  intros E m h [[R1 R2 R3 R4 R5 R6 R7 R8 R9 R10] S2 S3 S4 S5 S6 S7] [[H1 [H2 H3]] H4]. constructor; try assumption. constructor; try assumption.
  unfold message_strings in *. cbn [with_jwm m_jwm m_did m_recipients m_body m_attachments] in *. apply Forall_app in R1. apply Forall_app. now split.
Qed.
Lemma with_flat_jws_sendable : forall E m b, sendable E m -> sendable E (with_flat_jws m b).
Proof. intros E m b [[R1 R2 R3 R4 R5 R6 R7 R8 R9 R10] S2 S3 S4 S5 S6 S7]. constructor; try assumption. constructor; assumption. Qed.
Lemma with_flat_jwe_sendable : forall E m b, sendable E m -> sendable E (with_flat_jwe m b).
Proof. intros E m b [[R1 R2 R3 R4 R5 R6 R7 R8 R9 R10] S2 S3 S4 S5 S6 S7]. constructor; try assumption. constructor; assumption. Qed.

(** Replacing text members of a header. *)
Lemma good_typ : forall h t, good_header h -> good_header (jh_with_typ h t).
Proof. intros h t [[H1 [H2 H3]] H4]. split; [split; [exact H1|now split]|exact H4]. Qed.
Ltac fa := repeat match goal with
  | H : Forall _ (_ ++ _)%list |- _ => apply Forall_app in H; destruct H
  | |- Forall _ (_ ++ _)%list => apply Forall_app; split end.
Lemma ostr_forall : forall P (o : option string), opt_all P o <-> Forall P (ostr o).
Proof. intros P [s|]; cbn; split; intros H; [constructor; [exact H|constructor]|now inversion H|constructor|exact I]. Qed.
Lemma good_alg : forall h o, opt_all rust_string o -> good_header h -> good_header (jh_with_alg h o).
Proof.
  intros h o Ho [[H1 [H2 H3]] H4]. split; [split; [|now split]|exact H4]. unfold jwm_strings in *.
  cbn [jh_with_alg jh_enc jh_kid jh_skid jh_alg jh_jku jh_jwk jh_epk jh_cty]. apply ostr_forall in Ho. fa; assumption.
Qed.
Lemma good_enc : forall h o, opt_all rust_string o -> good_header h -> good_header (jh_with_enc h o).
Proof.
  intros h o Ho [[H1 [H2 H3]] H4]. split; [split; [|now split]|exact H4]. unfold jwm_strings in *.
  cbn [jh_with_enc jh_enc jh_kid jh_skid jh_alg jh_jku jh_jwk jh_epk jh_cty]. apply ostr_forall in Ho. fa; assumption.
Qed.
Lemma good_kid : forall h o, opt_all rust_string o -> good_header h -> good_header (jh_with_kid h o).
Proof.
  intros h o Ho [[H1 [H2 H3]] H4]. split; [split; [|now split]|exact H4]. unfold jwm_strings in *.
  cbn [jh_with_kid jh_enc jh_kid jh_skid jh_alg jh_jku jh_jwk jh_epk jh_cty]. apply ostr_forall in Ho. fa; assumption.
Qed.
Lemma good_skid : forall h o, opt_all rust_string o -> good_header h -> good_header (jh_with_skid h o).
Proof.
  intros h o Ho [[H1 [H2 H3]] H4]. split; [split; [|now split]|exact H4]. unfold jwm_strings in *.
  cbn [jh_with_skid jh_enc jh_kid jh_skid jh_alg jh_jku jh_jwk jh_epk jh_cty]. apply ostr_forall in Ho. fa; assumption.
Qed.

(** ** Texts of signed envelopes *)

Definition good_signature (s : signature) : Prop := opt_all good_header (sg_protected s) /\ opt_all good_header (sg_header s).
Definition good_jws (w : jws) : Prop :=
  rust_string (js_payload w) /\ opt_all good_signature (js_signature w) /\ opt_all (Forall good_signature) (js_signatures w).
Lemma good_signature_ok : forall s, good_signature s -> sig_ok s.
Proof.
  intros s [H1 H2]. split; [|split].
  - intros h Eh. rewrite Eh in H1. now apply good_header_ok.
  - intros h Eh. rewrite Eh in H1. now apply good_header_ok.
  - intros h Eh. rewrite Eh in H2. now apply good_header_ok.
Qed.
Lemma good_jws_ok : forall w, good_jws w -> jws_ok w.
Proof.
  intros w [_ [H1 H2]]. split.
  - intros g Eg. rewrite Eg in H1. now apply good_signature_ok.
  - intros l El. rewrite El in H2. eapply Forall_impl; [|exact H2]. intros s. apply good_signature_ok.
Qed.
Lemma utf8_signature_entries : forall s, good_signature s -> ents_utf8 (signature_entries s).
Proof.
  intros s [H1 H2]. unfold signature_entries. apply ents_utf8_app. split; [|apply ents_utf8_app; split].
  - apply ents_utf8_sopt; [reflexivity|]. intros h _. apply jutf8_jstr. apply b64_utf8.
  - apply ents_utf8_sopt; [reflexivity|]. intros h Eh. rewrite Eh in H2. now apply good_header_ok.
  - apply ents_utf8_one; [reflexivity|]. apply jutf8_jstr. apply b64_utf8.
Qed.
Lemma utf8_ser_jws : forall w, good_jws w -> jutf8 (ser_jws w).
Proof.
  intros w [H0 [H1 H2]]. unfold ser_jws. apply jutf8_obj. apply ents_utf8_app. split; [|apply ents_utf8_app; split].
  - apply ents_utf8_one; [reflexivity|]. apply jutf8_jstr. exact H0.
  - destruct (js_signature w); [apply utf8_signature_entries; exact H1|constructor].
  - apply ents_utf8_sopt; [reflexivity|]. intros l El. rewrite El in H2. apply jutf8_arr. apply Forall_forall. intros j Hj.
    apply in_map_iff in Hj. destruct Hj as [s [<- Hs]]. apply jutf8_obj. apply utf8_signature_entries.
    cbn in H2. rewrite Forall_forall in H2. now apply H2.
Qed.
Lemma jws_round : forall R w, good_jws w -> jws_from_slice R (jws_json w) = Some (re_jws R w) /\ jws_from_str R (jws_json w) = Some (re_jws R w).
Proof.
  intros R w H. unfold jws_from_slice, jws_from_str, jws_json. rewrite parse_slice_print; [|apply wf_ser_jws|now apply utf8_ser_jws].
  rewrite parse_print by apply wf_ser_jws. cbn [obind]. split; apply de_jws_ser; now apply good_jws_ok.
Qed.
Lemma jws_json_utf8 : forall w, good_jws w -> rust_string (jws_json w).
Proof. intros w H. apply print_utf8; [apply wf_ser_jws|now apply utf8_ser_jws]. Qed.

(** A signed envelope is neither a message nor an encrypted one. *)
Lemma jws_not_message : forall R w, message_from_str R (jws_json w) = None.
Proof.
  intros R w. unfold message_from_str, jws_json. rewrite parse_print by apply wf_ser_jws. cbn [obind]. unfold ser_jws. cbn [de_message].
  set (es := (_ ++ _)%list).
  assert (HB : member es "body" = Some Absent).
  { apply member_absent. unfold es. rewrite !occ_app. destruct (js_signature w) as [s|], (js_signatures w) as [l|]; try reflexivity;
      unfold signature_entries; destruct (sg_protected s), (sg_header s); reflexivity. }
  destruct (dopt _ (member es "recipients")); cbn [obind]; [|reflexivity]. rewrite HB. reflexivity.
Qed.
Lemma classify_jws : forall R w, (js_signature w <> None \/ exists s l, js_signatures w = Some (s :: l)) ->
  get_message_type R (jws_json w) = Ok DidCommJws.
Proof.
  intros R w H. unfold get_message_type, jws_json. rewrite parse_print by apply wf_ser_jws. cbn [oerr rbind]. unfold ser_jws, de_unknown. cbn [view obind].
  destruct (js_signature w) as [s|], (js_signatures w) as [l|].
  - unfold signature_entries; destruct (sg_protected s), (sg_header s); reflexivity.
  - unfold signature_entries; destruct (sg_protected s), (sg_header s); reflexivity.
  - reflexivity.
  - destruct H as [H|[s [l H]]]; congruence.
Qed.
