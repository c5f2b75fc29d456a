(** Properties C64 and C65: attachments as they are built, thread decorators and forward headers as they are created. *)

From Coq Require Import Ascii String Arith NArith List Bool Permutation Lia.
From Verif Require Import Bytes BytesFacts Base64 Base64Facts Utf8 Json JsonFacts SpecJson GrammarFacts Value Types Serde Message Attach Envelope
  Spec SpecOps SpecFacts CryptoLaws Examples BodyFacts CodecFacts PlainFacts PlainFacts2 SetterFacts PropPlain PropValue PropSetters.
Import ListNotations.
Local Open Scope string_scope.

(** ** C64 *)

(** Calls on a data builder and on an attachment builder, and what they do (the calls themselves, in order). *)
Inductive data_call := DJws (s : string) | DHash (s : string) | DLink (s : string) | DRaw (b : string) | DEncoded (s : string) | DJson (s : string).
Definition call_data (d : attachment_data) (c : data_call) : attachment_data :=
  match c with
  | DJws s => with_jws d s | DHash s => with_hash d s | DLink s => with_link d s
  | DRaw b => with_raw_payload d b | DEncoded s => with_encoded_payload d s | DJson s => with_json d s
  end.
Definition data_built (l : list data_call) : attachment_data := fold_left call_data l data_default.
Inductive attachment_call :=
| AId (s : string) | ADescription (s : string) | AFilename (s : string) | AMedia (s : string) | AFormat (s : string) | ASize (n : N)
| AData (l : list data_call).
Definition call_attachment (b : attachment_builder) (c : attachment_call) : attachment_builder :=
  ab_map b match c with
  | AId s => at_with_id s | ADescription s => at_with_description s | AFilename s => at_with_filename s | AMedia s => at_with_media_type s
  | AFormat s => at_with_format s | ASize n => at_with_size n | AData l => at_with_data (data_built l)
  end.
Definition built (timed : bool) (l : list attachment_call) : attachment_builder := fold_left call_attachment l (builder_new timed).

(** The value given by the last call that [f] recognises, if there is one. *)
Inductive latest {C X} (f : C -> option X) (l : list C) : option X -> Prop :=
| la_none : (forall c, In c l -> f c = None) -> latest f l None
| la_some : forall before c after x, l = (before ++ c :: after)%list -> f c = Some x -> (forall c', In c' after -> f c' = None) -> latest f l (Some x).

Lemma latest_fun : forall C X (f : C -> option X) l a b, latest f l a -> latest f l b -> a = b.
Proof.
  intros C X f l. induction l as [|c l IH] using rev_ind; intros a b Ha Hb.
  - inversion Ha as [|b1 c1 a1 x1 E1]; [|destruct b1; discriminate E1]. inversion Hb as [|b2 c2 a2 x2 E2]; [reflexivity|destruct b2; discriminate E2].
  - assert (G : forall o, latest f (l ++ [c]) o -> (exists x, f c = Some x /\ o = Some x) \/ (f c = None /\ latest f l o)).
    { intros o H. inversion H as [HN|before c1 after x EQ HX HA]; subst.
      - right. split; [apply HN; apply in_or_app; right; now left|]. constructor. intros c' Hc. apply HN. apply in_or_app. now left.
      - destruct after as [|z after _] using rev_ind.
        + apply app_inj_tail in EQ. destruct EQ as [-> ->]. left. now exists x.
        + rewrite app_comm_cons, app_assoc in EQ. apply app_inj_tail in EQ. destruct EQ as [-> ->]. right. split; [apply HA; apply in_or_app; right; now left|].
          eapply la_some; [reflexivity|exact HX|]. intros c' Hc. apply HA. apply in_or_app. now left. }
    destruct (G a Ha) as [[x [H1 ->]]|[H1 H2]], (G b Hb) as [[y [H3 ->]]|[H3 H4]]; try congruence. now apply IH.
Qed.
Lemma latest_fold : forall C X S (f : C -> option X) (get : S -> option X) (step : S -> C -> S),
  (forall s c, get (step s c) = match f c with Some x => Some x | None => get s end) ->
  forall l s, get s = None -> latest f l (get (fold_left step l s)).
Proof.
  intros C X S f get step H l. induction l as [|c l IH] using rev_ind; intros s Hs.
  - cbn. rewrite Hs. constructor. intros c [].
  - rewrite fold_left_app. cbn [fold_left]. rewrite H. destruct (f c) as [x|] eqn:EF.
    + eapply la_some; [reflexivity|exact EF|]. intros c' [].
    + specialize (IH s Hs). inversion IH as [HN EQ|before c1 after x EQ HX HA EQ2].
      * constructor. intros c' Hc. apply in_app_iff in Hc. destruct Hc as [Hc|[<-|[]]]; auto.
      * eapply la_some; [rewrite EQ, <- app_assoc; reflexivity|exact HX|]. intros c' Hc. apply in_app_iff in Hc. destruct Hc as [Hc|[<-|[]]]; auto.
Qed.

Definition jws_given (c : data_call) : option string := match c with DJws s => Some s | _ => None end.
Definition hash_given (c : data_call) : option string := match c with DHash s => Some s | _ => None end.
Definition json_given (c : data_call) : option string := match c with DJson s => Some s | _ => None end.
Definition link_given (c : data_call) : option string := match c with DLink s => Some s | _ => None end.
Definition payload_given (c : data_call) : option (string * bool) := match c with DRaw b => Some (b, true) | DEncoded s => Some (s, false) | _ => None end.
(** Raw payloads are encoded as RFC 4648 says, encoded ones are taken as they are. *)
Definition payload_text (p : option (string * bool)) (o : option string) : Prop :=
  match p with Some (b, true) => exists t, o = Some t /\ rfc4648 b t | Some (s, false) => o = Some s | None => o = None end.

(** Every member of the data is what the last call for it gave; links are collected. *)
Theorem C64_data : forall l, let d := data_built l in
  latest jws_given l (ad_jws d) /\ latest hash_given l (ad_hash d) /\ latest json_given l (ad_json d) /\
  (exists p, latest payload_given l p /\ payload_text p (ad_base64 d)) /\
  Forall2 (fun c s => link_given c = Some s) (filter (fun c => match c with DLink _ => true | _ => false end) l) (ad_links d).
Proof.
  intros l d. unfold d, data_built. split; [|split; [|split; [|split]]].
  - apply (latest_fold _ _ _ jws_given ad_jws call_data); [|reflexivity]. intros s []; reflexivity.
  - apply (latest_fold _ _ _ hash_given ad_hash call_data); [|reflexivity]. intros s []; reflexivity.
  - apply (latest_fold _ _ _ json_given ad_json call_data); [|reflexivity]. intros s []; reflexivity.
  - induction l as [|c l IH] using rev_ind.
    + exists None. split; [constructor; intros c []|reflexivity].
    + destruct IH as [p [HL HP]]. rewrite fold_left_app. cbn [fold_left].
      assert (G : payload_given c = None -> exists p, latest payload_given (l ++ [c]) p /\ payload_text p (ad_base64 (fold_left call_data l data_default))).
      { intros N. exists p. split; [|exact HP]. inversion HL as [HN EQ|before c1 after x EQ HX HA EQ2].
        - constructor. intros c' Hc. apply in_app_iff in Hc. destruct Hc as [Hc|[<-|[]]]; auto.
        - eapply la_some; [rewrite EQ, <- app_assoc; reflexivity|exact HX|]. intros c' Hc. apply in_app_iff in Hc. destruct Hc as [Hc|[<-|[]]]; auto. }
      destruct c as [s|s|s|b|s|s]; try (apply G; reflexivity).
      * exists (Some (b, true)). split; [eapply la_some; [reflexivity|reflexivity|intros c' []]|]. exists (b64_encode b). split; [reflexivity|apply b64_rfc].
      * exists (Some (s, false)). split; [eapply la_some; [reflexivity|reflexivity|intros c' []]|reflexivity].
  - induction l as [|c l IH] using rev_ind; [constructor|]. rewrite filter_app, fold_left_app. cbn [fold_left].
    destruct c as [s|s|s|b|s|s]; cbn [filter call_data]; try (rewrite app_nil_r; exact IH). cbn [ad_links with_link]. apply Forall2_app; [exact IH|]. now repeat constructor.
Qed.

Definition id_given (c : attachment_call) : option string := match c with AId s => Some s | _ => None end.
Definition description_given (c : attachment_call) : option string := match c with ADescription s => Some s | _ => None end.
Definition filename_given (c : attachment_call) : option string := match c with AFilename s => Some s | _ => None end.
Definition media_given (c : attachment_call) : option string := match c with AMedia s => Some s | _ => None end.
Definition format_given (c : attachment_call) : option string := match c with AFormat s => Some s | _ => None end.
Definition size_given (c : attachment_call) : option N := match c with ASize n => Some n | _ => None end.
Definition data_given (c : attachment_call) : option (list data_call) := match c with AData l => Some l | _ => None end.

(** The attachment that is appended to a message: the last value for every member, the time of appending if asked for at
    the beginning, empty data if none was given. The message changes in nothing else. *)
Theorem C64_attachment : forall m now timed l, exists a, attachment_iter (append_attachment now m (built timed l)) = (attachment_iter m ++ [a])%list /\
  latest id_given l (at_id a) /\ latest description_given l (at_description a) /\ latest filename_given l (at_filename a) /\
  latest media_given l (at_media_type a) /\ latest format_given l (at_format a) /\ latest size_given l (at_byte_count a) /\
  at_lastmod a = (if timed then Some now else None) /\
  (exists o, latest data_given l o /\ at_data a = match o with Some dl => data_built dl | None => data_built [] end) /\
  forall f, f <> FAttachments -> field_eq f m (append_attachment now m (built timed l)).
Proof.
  intros m now timed l. exists (finalize now (built timed l)). split; [reflexivity|].
  assert (B : ab_timed (built timed l) = timed).
  { unfold built. induction l as [|c l IH] using rev_ind; [reflexivity|]. rewrite fold_left_app. cbn [fold_left]. exact IH. }
  assert (F : forall X (get : attachment -> X), (forall x a, get (at_with_lastmod x a) = get a) -> get (finalize now (built timed l)) = get (ab_inner (built timed l))).
  { intros X get H. unfold finalize. destruct (ab_timed _); [apply H|reflexivity]. }
  assert (L : forall X (f : attachment_call -> option X) (get : attachment -> option X), (forall x a, get (at_with_lastmod x a) = get a) ->
    get attachment_default = None -> (forall b c, get (ab_inner (call_attachment b c)) = match f c with Some x => Some x | None => get (ab_inner b) end) ->
    latest f l (get (finalize now (built timed l)))).
  { intros X f get H1 H2 H3. rewrite (F _ get H1). unfold built.
    apply (latest_fold _ _ _ f (fun b => get (ab_inner b)) call_attachment); [exact H3|exact H2]. }
  split; [apply L; [reflexivity|reflexivity|intros b []; reflexivity]|]. split; [apply L; [reflexivity|reflexivity|intros b []; reflexivity]|].
  split; [apply L; [reflexivity|reflexivity|intros b []; reflexivity]|]. split; [apply L; [reflexivity|reflexivity|intros b []; reflexivity]|].
  split; [apply L; [reflexivity|reflexivity|intros b []; reflexivity]|]. split; [apply L; [reflexivity|reflexivity|intros b []; reflexivity]|].
  split.
  { unfold finalize. rewrite B. destruct timed; [reflexivity|]. clear. unfold built. induction l as [|c l IH] using rev_ind; [reflexivity|].
    rewrite fold_left_app. cbn [fold_left]. destruct c; exact IH. }
  split.
  { rewrite (F _ at_data) by reflexivity. clear F L B. unfold built. induction l as [|c l IH] using rev_ind.
    - exists None. split; [constructor; intros c []|reflexivity].
    - destruct IH as [o [HL HP]]. rewrite fold_left_app. cbn [fold_left].
      assert (G : data_given c = None -> latest data_given (l ++ [c]) o).
      { intros N. inversion HL as [HN EQ|before c1 after x EQ HX HA EQ2].
        - constructor. intros c' Hc. apply in_app_iff in Hc. destruct Hc as [Hc|[<-|[]]]; auto.
        - eapply la_some; [rewrite EQ, <- app_assoc; reflexivity|exact HX|]. intros c' Hc. apply in_app_iff in Hc. destruct Hc as [Hc|[<-|[]]]; auto. }
      destruct c as [s|s|s|s|s|n|dl]; try (exists o; split; [apply G; reflexivity|exact HP]).
      exists (Some dl). split; [eapply la_some; [reflexivity|reflexivity|intros c' []]|reflexivity]. }
  intros f N. destruct f; try contradiction; now fld.
Qed.

(** A value attached with [try_from] under the format application/json is among the decoded ones, after those of the
    attachments before it; under another format it is not. Any decoder that accepts the printed value. *)
Theorem C64_try_from : forall T (de : string -> option T) m now format j x, de (print j) = Some x ->
  let m' := append_attachment now m (builder_try_from format j) in
  (format = "application/json" -> forall ts, deserialize_attachments de m "application/json" = Ok ts ->
     deserialize_attachments de m' "application/json" = Ok (ts ++ [x])%list) /\
  (format <> "application/json" -> deserialize_attachments de m' "application/json" = deserialize_attachments de m "application/json").
Proof.
  intros T de m now format j x HX m'. split.
  - intros -> ts H. apply C33_deserialize in H. apply C33_deserialize. unfold m', attachment_iter, append_attachment. cbn [m_attachments with_attachments].
    rewrite filter_app. apply Forall2_app; [exact H|]. cbn [filter]. constructor; [|constructor]. split; [reflexivity|]. exists (print j). now split.
  - intros N. unfold m', deserialize_attachments. change (String.eqb "application/json" "application/json") with true. cbv iota.
    unfold append_attachment. cbn [m_attachments with_attachments]. rewrite filter_app. cbn [filter]. unfold has_format at 2.
    change (at_format (finalize now (builder_try_from format j))) with (Some format). cbv iota beta.
    destruct (String.eqb_spec format "application/json") as [E|_]; [contradiction|]. now rewrite app_nil_r.
Qed.
(** JSON values that are read as generic values: what was attached comes back, also after the message was sent. *)
Definition generic (E : env) (s : string) : option json := obind (parse s) (value_of (rt E 0) max_depth).
Theorem C64_value_back : forall E m now j ts, env_ok E -> rust_value j -> stable (rt E 0) j -> nested 127 j ->
  deserialize_attachments (generic E) m "application/json" = Ok ts ->
  let m' := append_attachment now m (builder_try_from "application/json" j) in
  deserialize_attachments (generic E) m' "application/json" = Ok (ts ++ [j])%list /\
  forall sk pk spk, sendable E m' -> jh_typ (m_jwm m) <> DidCommJwe -> jh_typ (m_jwm m) <> DidCommJws -> avoids envelope_names (dh_other (m_did m)) ->
  exists m2, receive E (as_raw_json m') sk pk spk = Ok m2 /\ deserialize_attachments (generic E) m2 "application/json" = Ok (ts ++ [j])%list.
Proof.
  intros E m now j ts HE HV HS HN HT m'.
  assert (G : deserialize_attachments (generic E) m' "application/json" = Ok (ts ++ [j])%list).
  { destruct (C64_try_from json (generic E) m now "application/json" j j) as [H _]; [|exact (H eq_refl ts HT)].
    unfold generic. rewrite parse_print by now apply rust_value_wf. cbn [obind]. destruct (rust_canon E 0 j HV HS) as [C1 [C2 C3]]. unfold value_of.
    apply nested_depth in HN. apply Nat.leb_le in HN. unfold max_depth. rewrite HN. now apply ValueFacts.vof_canon. }
  split; [exact G|]. intros sk pk spk HD N1 N2 HA.
  destruct (C33_plain_round_trip E m' sk pk spk HE HD N1 N2 HA) as [m2 [H1 H2]]. exists m2. split; [exact H1|].
  rewrite <- G. unfold deserialize_attachments. unfold attachment_iter in H2. now rewrite H2.
Qed.
Definition ex_calls : list attachment_call :=
  [AId "1"; AData [DLink "a"; DRaw "abc"]; AFormat "f"; AId "2"; AData [DLink "x"; DJson "{}"; DLink "y"]; ASize 5].
Example C64_example : attachment_iter (append_attachment "now" ex_small (built true ex_calls)) =
  [{| at_id := Some "2"; at_description := None; at_filename := None; at_media_type := None; at_format := Some "f"; at_lastmod := Some "now";
      at_byte_count := Some 5%N; at_data := {| ad_jws := None; ad_hash := None; ad_links := ["x"; "y"]; ad_base64 := None; ad_json := Some "{}" |} |}].
Proof. reflexivity. Qed.
Example C64_value_example : rust_value (JObj [("x", JNum "1")]) /\ stable (rt toy 0) (JObj [("x", JNum "1")]) /\ nested 127 (JObj [("x", JNum "1")]) /\
  deserialize_attachments (generic toy) ex_small "application/json" = Ok [] /\
  sendable toy (append_attachment "now" ex_small (builder_try_from "application/json" (JObj [("x", JNum "1")]))).
Proof.
  split; [rust_val|]. split; [stable_val|]. split; [apply nested_depth; apply Nat.leb_le; vm_compute; reflexivity|]. split; [reflexivity|].
  destruct ex_small_sendable as [S1 S2 S3 S4 S5 S6 S7]. constructor; try assumption.
  destruct S1. constructor; try assumption.
  - match goal with |- Forall _ ?l => let l' := eval vm_compute in l in change l with l' end. forall_tac str_tac.
  - constructor; [exact I|constructor].
Qed.

(** ** C65 *)

(** Which of the created decorators mark a message as an implicit reply: exactly those that name another message. *)
Theorem C65_marks : forall id x sender, (marks_reply (thread_implicit x) id <-> x <> id) /\ (marks_reply (thread_implicit_reply x) id <-> x <> id) /\
  (marks_reply (thread_effective_reply x sender) id <-> x <> id).
Proof.
  intros id x sender. split; [|split]; (split; [intros [H _]; exact H|]); intros N; (split; [exact N|]); intros ro H k n HI; try discriminate H.
  injection H as <-. destruct HI as [HI|[]]. now injection HI as _ <-.
Qed.
Theorem C65_test : forall t id, is_implicit_reply t id = true <-> marks_reply t id.
Proof.
  intros t id. unfold is_implicit_reply, marks_reply. destruct (String.eqb_spec (th_thid t) id) as [E|N].
  - split; [discriminate|]. intros [H _]. contradiction.
  - destruct (th_received_orders t) as [ro|].
    + rewrite forallb_forall. split.
      * intros H. split; [exact N|]. intros ro' EQ k n HI. injection EQ as <-. specialize (H (k, n) HI). cbn in H. now apply N.eqb_eq.
      * intros [_ H] [k n] HI. cbn. apply N.eqb_eq. eapply H; [reflexivity|exact HI].
    + split; [|reflexivity]. intros _. split; [exact N|]. discriminate.
Qed.
(** A message that starts a thread with a decorator naming itself: replies follow its [thid] only, so without one they
    carry neither its id nor its decorator. *)
Theorem C65_started_thread_lost : forall m p, dh_thread (m_did p) = Some (thread_implicit (dh_id (m_did p))) ->
  dh_thid (m_did (reply_to m p)) = dh_thid (m_did p) /\ dh_thread (m_did (reply_to m p)) = dh_thread (m_did m).
Proof.
  intros m p H. destruct (C31_reply_plain m p) as [H1 [_ [_ H2]]].
  - intros t HT. assert (t = thread_implicit (dh_id (m_did p))) by congruence. subst t. intros G. apply C65_marks in G; [contradiction|exact ""].
  - split; [exact H1|]. destruct (H2 FThread) as [_ [G _]]; [cbn; intuition discriminate|]. cbn in G. now symmetry.
Qed.
(** Replies to a message decorated as a reply go to the thread it names; the sender named in the decorator is dropped. *)
Theorem C65_reply_thread : forall m p x sender t, In t [thread_implicit x; thread_implicit_reply x; thread_effective_reply x sender] ->
  dh_thread (m_did p) = Some t -> x <> dh_id (m_did p) ->
  dh_thid (m_did (reply_to m p)) = Some x /\ dh_thread (m_did (reply_to m p)) = Some (thread_implicit_reply x).
Proof.
  intros m p x sender t HI HT N. assert (HM : marks_reply t (dh_id (m_did p))).
  { destruct (C65_marks (dh_id (m_did p)) x sender) as [M1 [M2 M3]]. destruct HI as [<-|[<-|[<-|[]]]]; [now apply M1|now apply M2|now apply M3]. }
  assert (HX : th_thid t = x) by (destruct HI as [<-|[<-|[<-|[]]]]; reflexivity).
  destruct (C31_reply_decorator m p t HT HM) as [H1 [H2 _]]. rewrite HX in *. now split.
Qed.
(** Forward headers: receivers, sender and times as given, everything else as in a new header; in particular the type is
    not the forward type. Before 1970 there is none. *)
Theorem C65_forward : forall uuid clock to from expires,
  match clock with
  | Some now => exists d, dh_forward uuid clock to from expires = Ok d /\ dh_to d = to /\ dh_from d = from /\ dh_created d = Some now /\ dh_expires d = expires /\
      dh_id d = uuid /\ dh_thid d = None /\ dh_pthid d = None /\ dh_from_prior d = None /\ dh_thread d = None /\ dh_other d = [] /\
      dh_type d = "JWM" /\ dh_type d <> "https://didcomm.org/routing/2.0/forward"
  | None => exists e, dh_forward uuid clock to from expires = Err e
  end.
Proof. intros uuid [now|] to from expires; eexists; [|reflexivity]. split; [reflexivity|]. repeat (split; [reflexivity|]). discriminate. Qed.
(** A message with such a header is received as it was made if it has a receiver. *)
Theorem C65_forward_sent : forall E uuid now to from expires d m sk pk spk, env_ok E -> dh_forward uuid (Some now) to from expires = Ok d ->
  to <> [] -> Forall rust_string to -> opt_all rust_string from -> rust_string uuid -> is_u64 now -> opt_all is_u64 expires ->
  sendable E m -> jh_typ (m_jwm m) <> DidCommJwe -> jh_typ (m_jwm m) <> DidCommJws ->
  exists m', receive E (as_raw_json (with_did m d)) sk pk spk = Ok m' /\ same_did d (m_did m') /\ m_body m' = m_body m.
Proof.
  intros E uuid now to from expires d m sk pk spk HE HD NT HT HF HU HN HX HS N1 N2.
  apply ok_inj in HD. subst d.
  destruct HS as [S1 S2 S3 S4 S5 S6 S7].
  destruct (C01_plain_round_trip E (with_did m (dh_with_expires (dh_with_created (dh_with_from (dh_with_to (didcomm_new uuid) to) from) (Some now)) expires)) sk pk spk HE) as [m' [H1 [H2 _]]].
  - constructor; try assumption.
    + destruct S1 as [R1 R2 R3 R4 R5 R6 R7 R8 R9 R10]. constructor; try assumption; try exact I; try (constructor; fail).
      unfold message_strings in *. apply Forall_app in R1. destruct R1 as [G1 G2]. apply Forall_app in G2. destruct G2 as [_ G2].
        apply Forall_app. split; [exact G1|]. apply Forall_app. split; [|exact G2].
        unfold did_strings. cbn. constructor; [exact HU|]. constructor; [reflexivity|]. rewrite app_nil_r. apply Forall_app. split; [exact HT|].
        destruct from; [|constructor]. constructor; [exact HF|constructor].
    + intros k [].
  - exact N1.
  - exact N2.
  - intros k [].
  - exists m'. split; [exact H1|]. split; [apply H2|]. symmetry. apply H2.
Qed.
Example C65_example : sendable toy ex_small /\ marks_reply (thread_effective_reply "a" "did:x") "b" /\
  exists d, dh_forward "u" (Some 7%N) ["did:toy:bob"] None None = Ok d.
Proof. split; [exact ex_small_sendable|]. split; [apply (C65_marks "b" "a" "did:x"); discriminate|]. eexists. reflexivity. Qed.

Print Assumptions C64_data.
Print Assumptions C64_attachment.
Print Assumptions C64_try_from.
Print Assumptions C64_value_back.
Print Assumptions C65_marks.
Print Assumptions C65_test.
Print Assumptions C65_started_thread_lost.
Print Assumptions C65_reply_thread.
Print Assumptions C65_forward.
Print Assumptions C65_forward_sent.
