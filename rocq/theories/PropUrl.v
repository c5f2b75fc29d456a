(** C80: the type DidUrl. *)

From Coq Require Import Ascii String Arith NArith List Bool Lia.
From Verif Require Import Bytes BytesFacts Utf8 Json JsonFacts Types Serde Regex RegexFacts Spec SpecText SerdeFacts DidUrl.
Import ListNotations.
Local Open Scope string_scope.

(** What counts as a DID URL here: somewhere in the text three letters, each d or i, then lower case letters between two colons. *)
Definition d_or_i (c : ascii) : Prop := c = "d"%char \/ c = "i"%char.
Definition looks_like_did (s : string) : Prop :=
  exists before x y z method after, d_or_i x /\ d_or_i y /\ d_or_i z /\ all_chars lower_letter method /\
    s = before ++ String x (String y (String z (":" ++ method ++ ":" ++ after))).

Lemma lang_any : forall s, lang (RStar (RCls (fun _ => true))) s.
Proof.
  intros s. apply (lang_star_cls (fun _ => true) (fun _ => True)); [tauto|]. intros c _. exact I.
Qed.
Lemma di_cls : forall s, lang (RCls (fun c => is_char 100 c || is_char 105 c)%bool) s <-> exists c, d_or_i c /\ s = String c "".
Proof.
  intros s. rewrite lang_cls.
  assert (HC : forall c, (is_char 100 c || is_char 105 c)%bool = true <-> d_or_i c) by (intros c; chars; reflexivity).
  split; intros [c [H ->]]; exists c; (split; [now apply HC|reflexivity]).
Qed.
Lemma url_re_ok : forall s, lang url_re s <-> exists x y z method, d_or_i x /\ d_or_i y /\ d_or_i z /\ all_chars lower_letter method /\
  s = String x (String y (String z (":" ++ method ++ ":"))).
Proof.
  intros s. unfold url_re. rewrite lang_seq. split.
  - intros [p [q [HP [HQ ->]]]].
    apply lang_seq in HP. destruct HP as [p1 [p' [H1 [HP ->]]]]. apply lang_seq in HP. destruct HP as [p2 [p3 [H2 [H3 ->]]]].
    apply di_cls in H1, H2, H3. destruct H1 as [x [Hx ->]]. destruct H2 as [y [Hy ->]]. destruct H3 as [z [Hz ->]].
    apply lang_seq in HQ. destruct HQ as [q1 [q' [G1 [HQ ->]]]]. apply lang_seq in HQ. destruct HQ as [q2 [q3 [G2 [G3 ->]]]].
    apply lang_chr in G1; [|reflexivity]. apply lang_chr in G3; [|reflexivity]. subst q1 q3.
    apply (lang_star_cls lower lower_letter lower_ok) in G2. exists x, y, z, q2. repeat (split; [assumption|]). reflexivity.
  - intros [x [y [z [method [Hx [Hy [Hz [HM ->]]]]]]]].
    exists (String x (String y (String z ""))), (":" ++ method ++ ":"). split; [|split; [|reflexivity]].
    + apply lang_seq. exists (String x ""), (String y (String z "")). split; [apply di_cls; now exists x|]. split; [|reflexivity].
      apply lang_seq. exists (String y ""), (String z ""). split; [apply di_cls; now exists y|]. split; [|reflexivity]. apply di_cls. now exists z.
    + apply lang_seq. exists ":", (method ++ ":"). split; [now apply lang_chr|]. split; [|reflexivity].
      apply lang_seq. exists method, ":". split; [now apply (lang_star_cls lower lower_letter lower_ok)|]. split; [now apply lang_chr|reflexivity].
Qed.
Lemma found_ok : forall s, found url_re s = true <-> looks_like_did s.
Proof.
  intros s. unfold found. rewrite re_match_ok, lang_seq. split.
  - intros [before [r [_ [HR ->]]]]. apply lang_seq in HR. destruct HR as [m [after [HM [_ ->]]]]. apply url_re_ok in HM.
    destruct HM as [x [y [z [method [Hx [Hy [Hz [HM ->]]]]]]]]. exists before, x, y, z, method, after. repeat (split; [assumption|]).
    cbn [append]. now rewrite !sapp_assoc.
  - intros [before [x [y [z [method [after [Hx [Hy [Hz [HM ->]]]]]]]]]].
    exists before, (String x (String y (String z (":" ++ method ++ ":" ++ after)))). split; [apply lang_any|]. split; [|reflexivity].
    apply lang_seq. exists (String x (String y (String z (":" ++ method ++ ":")))), after. split; [|split; [apply lang_any|]].
    + apply url_re_ok. now exists x, y, z, method.
    + cbn [append]. now rewrite !sapp_assoc.
Qed.

(** How many colons a text has. *)
Fixpoint colons (s : string) : nat := match s with "" => 0 | String c r => (if Ascii.eqb c ":" then 1 else 0) + colons r end.
Lemma colons_app : forall a b, colons (a ++ b) = colons a + colons b.
Proof. induction a as [|c a IH]; intros b; cbn [append colons]; [reflexivity|]. rewrite IH. lia. Qed.
Lemma colons_none : forall s, all_chars (fun c => c <> ":"%char) s -> colons s = 0.
Proof.
  induction s as [|c s IH]; intros H; [reflexivity|]. apply all_chars_cons in H. destruct H as [H1 H2]. cbn [colons]. rewrite (IH H2).
  destruct (Ascii.eqb_spec c ":"); [contradiction|reflexivity].
Qed.
Lemma lower_no_colon : forall c, lower_letter c -> c <> ":"%char.
Proof. intros c H ->. apply lower_ok in H. vm_compute in H. discriminate. Qed.
Lemma split_colon : forall p q p' q', p ++ ":" ++ q = p' ++ ":" ++ q' -> colons p = 0 -> colons p' = 0 -> p = p' /\ q = q'.
Proof.
  induction p as [|c p IH]; intros q [|c' p'] q' E H H'; cbn [append] in E.
  - injection E as ->. auto.
  - injection E as <- _. cbn [colons Ascii.eqb Bool.eqb] in H'. discriminate.
  - injection E as -> _. cbn [colons Ascii.eqb Bool.eqb] in H. discriminate.
  - injection E as <- E. cbn [colons] in H, H'. destruct (Ascii.eqb c ":"); [discriminate|]. destruct (IH q p' q' E H H') as [-> ->]. auto.
Qed.

(** ** C80 *)

(** A text is accepted exactly when it looks like a DID somewhere; the value holds the whole text. *)
Theorem C80_accepts : forall s u, did_url_from_str s = Ok u <-> u = s /\ looks_like_did s.
Proof.
  intros s u. unfold did_url_from_str. rewrite <- found_ok. destruct (found url_re s); split.
  - intros H. injection H as <-. auto.
  - intros [-> _]. reflexivity.
  - discriminate.
  - intros [_ H]. discriminate.
Qed.
(** Every other text gives the error BadDid; there is no panic. *)
Theorem C80_refuses : forall s, ~ looks_like_did s -> did_url_from_str s = Err EBadDid.
Proof.
  intros s H. unfold did_url_from_str. destruct (found url_re s) eqn:E; [|reflexivity]. apply found_ok in E. contradiction.
Qed.
(** Everything from which the crate can take a DID (C35) is accepted, and comes back from [to_string]. *)
Theorem C80_dids : forall s d, did_url s d -> exists u, did_url_from_str s = Ok u /\ did_url_to_string u = s.
Proof.
  intros s d [HD HT]. exists s. split; [|reflexivity]. apply C80_accepts. split; [reflexivity|].
  destruct HD as [method [segments [id [_ [HM [_ [_ [_ ->]]]]]]]]. destruct HT as [path [query [fragment [_ [_ [_ ->]]]]]].
  exists "", "d"%char, "i"%char, "d"%char, method. eexists. unfold d_or_i. repeat (split; [auto|]). cbn [append]. rewrite !sapp_assoc. reflexivity.
Qed.
(** Whatever stands around it does not count, so that line breaks, blanks and other texts are part of accepted values. *)
Theorem C80_surrounded : forall s a b, did_url_from_str s = Ok s -> did_url_from_str (a ++ s ++ b) = Ok (a ++ s ++ b).
Proof.
  intros s a b H. apply C80_accepts in H. destruct H as [_ [before [x [y [z [method [after [Hx [Hy [Hz [HM ->]]]]]]]]]]].
  apply C80_accepts. split; [reflexivity|]. exists (a ++ before), x, y, z, method, (after ++ b). repeat (split; [assumption|]).
  rewrite !sapp_assoc. cbn [append]. now rewrite !sapp_assoc.
Qed.
(** Accepted values need not contain any DID, and not even the letters did. *)
Theorem C80_no_did : exists s, did_url_from_str s = Ok s /\ (forall d, ~ did_url s d) /\ forall a b, s <> a ++ "did" ++ b.
Proof.
  exists "iii::". split; [vm_compute; reflexivity|]. split.
  - intros d [[method [segments [id [_ [_ [_ [_ [_ ->]]]]]]]] [path [query [fragment [_ [_ [_ H]]]]]]]. discriminate.
  - intros a b H. do 5 (destruct a as [|? a]; [discriminate|cbn [append] in H; injection H as _ H]). destruct a; discriminate.
Qed.
(** The method ends with a colon and has small letters only. *)
Theorem C80_method : forall x method, In x ["did"; "ddd"] -> all_chars (fun c => c <> ":"%char) method ->
  (exists u, did_url_from_str (x ++ ":" ++ method ++ ":") = Ok u) <-> all_chars lower_letter method.
Proof.
  intros x method HX HM.
  assert (N : colons x = 0) by (destruct HX as [<-|[<-|[]]]; reflexivity). split.
  - intros [u H]. apply C80_accepts in H. destruct H as [_ [before [a [b [c [me [after [Ha [Hb [Hc [HL E]]]]]]]]]]].
    replace (before ++ String a (String b (String c (":" ++ me ++ ":" ++ after)))) with ((before ++ String a (String b (String c ""))) ++ ":" ++ (me ++ ":" ++ after)) in E
      by (rewrite !sapp_assoc; reflexivity).
    assert (M : colons method = 0) by now apply colons_none.
    assert (M' : colons me = 0) by (apply colons_none; exact (all_chars_impl _ _ me (fun k => lower_no_colon k) HL)).
    pose proof (f_equal colons E) as EC. rewrite !colons_app, N, M, M' in EC. cbn [colons Ascii.eqb Bool.eqb] in EC.
    set (p := before ++ String a (String b (String c ""))) in *.
    assert (P : colons p = 0) by (unfold p; rewrite colons_app; cbn [colons] in EC |- *; lia).
    apply split_colon in E; [|exact N|exact P]. destruct E as [_ E].
    apply split_colon in E; [|exact M|exact M']. destruct E as [-> _]. exact HL.
  - intros HL. eexists. apply C80_accepts. split; [reflexivity|].
    destruct HX as [<-|[<-|[]]]; [exists "", "d"%char, "i"%char, "d"%char, method, ""|exists "", "d"%char, "d"%char, "d"%char, method, ""];
      unfold d_or_i; repeat (split; [auto|]); reflexivity.
Qed.
(** A text without two colons is refused, in particular a DID without an identifier part. *)
Theorem C80_two_colons : forall s, colons s < 2 -> did_url_from_str s = Err EBadDid.
Proof.
  intros s H. apply C80_refuses. intros [before [x [y [z [method [after [_ [_ [_ [_ ->]]]]]]]]]].
  rewrite colons_app in H. cbn [colons append] in H. rewrite !colons_app in H. cbn [colons Ascii.eqb Bool.eqb append] in H.
  repeat (match type of H with context [if ?b then _ else _] => destruct b end; try lia).
Qed.
(** A value read from JSON is not checked: every text is taken, also those that [from_str] refuses. *)
Theorem C80_unchecked : forall s, did_url_from_json (print (ser_did_url s)) = Some s.
Proof.
  intros s. unfold did_url_from_json, ser_did_url. rewrite parse_print by apply wf_jstr. reflexivity.
Qed.
Theorem C80_unchecked_refused : exists text u, did_url_from_json text = Some u /\ did_url_from_str (did_url_to_string u) = Err EBadDid.
Proof.
  exists (print (ser_did_url "javascript")), "javascript". split; [apply C80_unchecked|vm_compute; reflexivity].
Qed.

Example C80_example : did_url_from_str "did:key:z6Mk#key-1" = Ok "did:key:z6Mk#key-1" /\ did_url_from_str "did:key" = Err EBadDid /\
  did_url_from_str "did:Web:example.com" = Err EBadDid /\ did_url_from_str "did:3:x" = Err EBadDid /\
  did_url_from_str "see idi::" = Ok "see idi::" /\ did_url_from_str "did:web:example.com:user" = Ok "did:web:example.com:user".
Proof. repeat split; vm_compute; reflexivity. Qed.
Example C80_example_dids : did_url "did:key:z6Mk#key-1" "did:key:z6Mk" /\ ~ looks_like_did "did:key".
Proof.
  split.
  - split; [apply did_re_ok; vm_compute; reflexivity|]. exists "", "", "#key-1". split; [now left|]. split; [now left|]. split; [|reflexivity].
    right. exists "key-1". split; [reflexivity|]. intros c H. cbn in H. repeat (destruct H as [<-|H]; [vm_compute; discriminate|]). destruct H.
  - rewrite <- found_ok. vm_compute. discriminate.
Qed.
Example C80_example_method : all_chars (fun c => c <> ":"%char) "key" /\ all_chars lower_letter "key" /\ colons "did:key" < 2.
Proof.
  assert (A : all_chars lower_letter "key") by (apply (lang_star_cls lower lower_letter lower_ok), re_match_ok; vm_compute; reflexivity).
  split; [exact (all_chars_impl _ _ "key" (fun k => lower_no_colon k) A)|]. split; [exact A|]. vm_compute. lia.
Qed.

Print Assumptions C80_accepts.
Print Assumptions C80_refuses.
Print Assumptions C80_dids.
Print Assumptions C80_surrounded.
Print Assumptions C80_no_did.
Print Assumptions C80_method.
Print Assumptions C80_two_colons.
Print Assumptions C80_unchecked.
Print Assumptions C80_unchecked_refused.
