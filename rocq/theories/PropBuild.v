(** Parts that callers put together themselves: C60 (rotation claims), C61 (keys), C62 (signed envelopes). *)

From Coq Require Import Ascii String Arith NArith List Bool Permutation Lia.
From Verif Require Import Bytes BytesFacts Base64 Utf8 Utf8Facts Json JsonFacts Value ValueFacts Types Serde SerdeFacts Message Envelope Spec SpecFacts SpecText SpecJson SpecDecode
  GrammarFacts PlainFacts PlainFacts2 CodecFacts SpecSign HeaderFacts SetterFacts CryptoLaws Examples ReadFacts ReadFacts2 ReadFacts3 PropDecode OrderFacts Build.
Import ListNotations.
Local Open Scope string_scope.

(** ** C60 *)

Theorem C60_from_str : forall s p, prior_from_str s = Ok p <-> exists j, document s j /\ claims_text j p.
Proof.
  intros s p. unfold prior_from_str. split.
  - intros H. destruct (parse s) as [j|] eqn:EP; [|discriminate]. cbn [oerr rbind] in H. destruct (de_prior j) as [q|] eqn:EQ; [|discriminate]. cbn [oerr] in H.
    apply ok_inj in H. subst q. exists j. split; [now apply document_iff|]. now apply C56_parts.
  - intros [j [HD HC]]. apply document_iff in HD. rewrite HD. cbn [oerr rbind]. apply C56_parts in HC. now rewrite HC.
Qed.
(** There is one error and no panic. *)
Theorem C60_error : forall s, (forall p j, document s j -> ~ claims_text j p) -> prior_from_str s = Err ESerde.
Proof.
  intros s H. destruct (prior_from_str s) as [p|e|] eqn:EP.
  - apply C60_from_str in EP. destruct EP as [j [HD HC]]. exfalso. eapply H; eauto.
  - unfold prior_from_str in EP. destruct (parse s) as [j|]; [|cbn in EP; congruence]. cbn [oerr rbind] in EP. destruct (de_prior j); cbn in EP; congruence.
  - unfold prior_from_str in EP. destruct (parse s) as [j|]; [|discriminate]. cbn [oerr rbind] in EP. destruct (de_prior j); discriminate.
Qed.
Theorem C60_bytes : forall b, (utf8_text b -> prior_try_from b = prior_from_str b) /\ (~ utf8_text b -> prior_try_from b = Err EUtf8Parse).
Proof.
  intros b. unfold prior_try_from. destruct (utf8_valid b) eqn:EU.
  - split; [reflexivity|]. intros H. elim H. now apply utf8_iff.
  - split; [|reflexivity]. intros H. apply utf8_iff in H. congruence.
Qed.
(** What is written is read back. *)
Theorem C60_round_trip : forall p, prior_from_str (print (ser_prior p)) = Ok p.
Proof.
  intros [sub iss]. unfold prior_from_str. rewrite parse_print; [destruct sub; reflexivity|].
  destruct sub; repeat constructor.
Qed.
(** A compact JWT, which is what the DIDComm specification puts here, is never accepted: nothing without a brace or bracket is. *)
Definition token_char (c : ascii) : Prop := letter c \/ digit c \/ c = "-"%char \/ c = "_"%char \/ c = "."%char.
Lemma chars_app : forall a b, list_ascii_of_string (a ++ b) = (list_ascii_of_string a ++ list_ascii_of_string b)%list.
Proof. induction a as [|c a IH]; intros b; [reflexivity|]. cbn. now rewrite IH. Qed.
Lemma bracket_in : forall s j, document s j -> struct_like ["sub"; "iss"] j -> In "{"%char (list_ascii_of_string s) \/ In "["%char (list_ascii_of_string s).
Proof.
  intros s j [w1 [t [w2 [_ [HD [_ ->]]]]]] HS. rewrite !chars_app. assert (H : In "{"%char (list_ascii_of_string t) \/ In "["%char (list_ascii_of_string t)).
  { destruct HS; inversion HD; subst; cbn [append list_ascii_of_string]; [left|left|right|right]; now left. }
  destruct H; [left|right]; apply in_or_app; right; apply in_or_app; now left.
Qed.
Lemma ascii_text_utf8 : forall s, (forall c, In c (list_ascii_of_string s) -> (code c < 128)%N) -> utf8_valid s = true.
Proof. induction s as [|c s IH]; intros H; [reflexivity|]. rewrite utf8_ascii_cons; [apply IH; intros d Hd|]; apply H; [now right|now left]. Qed.
Lemma token_code : forall c, token_char c -> (code c < 128)%N /\ c <> "{"%char /\ c <> "["%char.
Proof.
  intros c H. assert (G : (code c <= 122)%N /\ code c <> 91%N).
  { unfold token_char, letter, digit, between in H. unfold code. destruct H as [[H|H]|[H|[->|[->| ->]]]]; cbn in *; lia. }
  split; [lia|]. split; intros ->; cbn in G; lia.
Qed.
Theorem C60_compact_refused : forall s, all_chars token_char s -> prior_from_str s = Err ESerde /\ prior_try_from s = Err ESerde.
Proof.
  intros s H. assert (E : prior_from_str s = Err ESerde).
  { apply C60_error. intros p j HD [HS _]. destruct (bracket_in _ _ HD HS) as [HI|HI]; apply H, token_code in HI; tauto. }
  split; [exact E|]. destruct (C60_bytes s) as [HB _]. rewrite HB; [exact E|]. apply utf8_iff, ascii_text_utf8. intros c Hc. now apply token_code, H.
Qed.
(** Nor is a message with a text there: it cannot be received at all. *)
Lemma only_value : forall es k x y, only es k x -> In (k, y) es -> y = x.
Proof.
  intros es k x y [b [a [-> [HB HA]]]] HI. apply in_app_or in HI. destruct HI as [HI|[HI|HI]].
  - elim HB. apply in_map_iff. now exists (k, y).
  - congruence.
  - elim HA. apply in_map_iff. now exists (k, y).
Qed.
Lemma given_value : forall fs es k x y, given fs (JObj es) k x -> In (k, y) es -> y = x.
Proof. intros fs es k x y H HI. inversion H; subst. eapply only_value; eauto. Qed.
Lemma optional_value : forall A fs es k (P : json -> A -> Prop) o y, optional fs (JObj es) k P o -> In (k, y) es -> y <> JNull -> exists v, P y v.
Proof.
  intros A fs es k P o y H HI HN. destruct o as [v|]; cbn [optional] in H.
  - destruct H as [x [HG [_ HP]]]. rewrite <- (given_value _ _ _ _ _ HG HI) in HP. now exists v.
  - destruct H as [H|H]; [|now rewrite <- (given_value _ _ _ _ _ H HI) in HN]. inversion H; subst. match goal with HM : missing _ _ |- _ => elim HM end.
    apply in_map_iff. now exists (k, y).
Qed.
Lemma classify_error : forall R text e, get_message_type R text = Err e -> e = ESerde.
Proof.
  intros R text e H. unfold get_message_type in H. destruct (parse text) as [j|]; cbn [oerr rbind] in H; [|congruence].
  destruct (de_unknown j) as [u|]; cbn [oerr rbind] in H; [|congruence]. destruct (un_iv u); [discriminate|]. destruct (_ || _)%bool; [discriminate|].
  destruct (message_from_str R text); cbn [oerr rbind] in H; congruence.
Qed.
Lemma classify_np : forall R text, get_message_type R text <> Panic.
Proof.
  intros R text H. unfold get_message_type in H. destruct (parse text) as [j|]; cbn [oerr rbind] in H; [|congruence].
  destruct (de_unknown j) as [u|]; cbn [oerr rbind] in H; [|congruence]. destruct (un_iv u); [discriminate|]. destruct (_ || _)%bool; [discriminate|].
  destruct (message_from_str R text); cbn [oerr rbind] in H; congruence.
Qed.
Lemma unreadable_received : forall E text es, document text (JObj es) -> (forall i, message_from_str (rt E i) text = None) ->
  (forall n, In n ["iv"; "signature"; "signatures"] -> ~ has_member es n) -> forall sk pk spk, receive E text sk pk spk = Err ESerde.
Proof.
  intros E text es HD G HN sk pk spk. unfold receive. destruct (get_message_type (rt E 0) text) as [t|x|] eqn:ET.
  - apply document_iff in HD. apply (classify_members _ _ _ _ HD) in ET. destruct ET as [_ [_ [_ [[H _]|[[_ [[H|H] _]]|[_ [_ [_ [m [H _]]]]]]]]]].
    + elim (HN "iv"); [now left|exact H].
    + elim (HN "signature"); [right; now left|exact H].
    + elim (HN "signatures"); [right; right; now left|exact H].
    + rewrite G in H. discriminate.
  - apply classify_error in ET. now subst x.
  - now apply classify_np in ET.
Qed.
Theorem C60_message_refused : forall E k text es e s, env_ok E -> document text (JObj es) -> In ("from_prior", JStr e s) es ->
  message_from_str (rt E k) text = None /\
  ((forall n, In n ["iv"; "signature"; "signatures"] -> ~ has_member es n) -> forall sk pk spk, receive E text sk pk spk = Err ESerde).
Proof.
  intros E k text es e s HE HD HI. assert (G : forall i, message_from_str (rt E i) text = None).
  { intros i. destruct (message_from_str (rt E i) text) as [m|] eqn:EM; [|reflexivity]. apply C56_message_sound in EM; [|exact HE].
    destruct EM as [j [HD' HM]]. apply document_iff in HD, HD'. assert (j = JObj es) by congruence. subst j.
    destruct HM as [es' [EE [_ [_ [_ [_ [[es2 [_ HP]] _]]]]]]]. do 8 destruct HP as [_ HP]. destruct HP as [HP _].
    destruct (optional_value _ _ _ _ _ _ _ HP HI) as [v HV]; [discriminate|]. destruct HV as [HV _]. inversion HV. }
  split; [apply G|]. now apply unreadable_received.
Qed.
Example C60_example : prior_from_str "{""iss"":""did:example:old"",""exp"":1}" = Ok {| pc_sub := None; pc_iss := "did:example:old" |} /\
  all_chars token_char "eyJhbGciOiJFZERTQSJ9.eyJpc3MiOiJ4In0.c2ln" /\
  exists es, document "{""id"":""1"",""type"":""t"",""from"":null,""typ"":""application/didcomm-plain+json"",""body"":{},""from_prior"":""eyJ.eyJ.c2ln""}" (JObj es) /\
    In ("from_prior", JStr false "eyJ.eyJ.c2ln") es /\ forall n, In n ["iv"; "signature"; "signatures"] -> ~ has_member es n.
Proof.
  split; [vm_compute; reflexivity|]. split.
  - intros c H. cbn in H. unfold token_char, letter, digit, between.
    repeat (destruct H as [<-|H]; [cbn; first [left; left; lia|left; right; lia|right; left; lia|right; right; tauto]|]). destruct H.
  - eexists. split; [apply document_iff; vm_compute; reflexivity|]. split; [cbn; tauto|]. intros n Hn [x [Hx _]]. cbn in Hn. destruct Hn as [<-|[<-|[<-|[]]]]; cbn in Hx; repeat (destruct Hx as [Hx|Hx]; [discriminate Hx|]); destruct Hx.
Qed.

(** ** C61 *)

(** [KeyAlgorithm::to_string] is the registered name in quotation marks: as a JSON text it stands for the variant, but it is
    not the name, and it is different for different variants. *)
Theorem C61_algorithm_text : forall a n, In (n, a) key_algorithm_table ->
  key_algorithm_string a = quoted n /\ (exists j, document (key_algorithm_string a) j /\ variant false key_algorithm_table j a) /\
  (forall n' a', In (n', a') key_algorithm_table -> key_algorithm_string a <> n') /\
  (forall a', key_algorithm_string a' = key_algorithm_string a -> a' = a).
Proof.
  intros a n HI. assert (Q : key_algorithm_string a = quoted n).
  { cbn in HI. repeat (destruct HI as [HI|HI]; [injection HI as <- <-; vm_compute; reflexivity|]). destruct HI. }
  assert (HQ : forall b, exists s, key_algorithm_string b = String (chr 34) s) by (intros []; vm_compute; eexists; reflexivity).
  split; [exact Q|]. split; [|split].
  - exists (jstr (key_algorithm_name a)). split; [apply document_iff; apply parse_print; constructor|]. exists (key_algorithm_name a). split; [|left; eexists; reflexivity].
    destruct a; cbn; tauto.
  - intros n' a' HI' HE. destruct (HQ a) as [s Hs]. rewrite Hs in HE. subst n'. cbn in HI'. repeat (destruct HI' as [HI'|HI']; [discriminate HI'|]). destruct HI'.
  - intros a' HE. destruct a, a'; try reflexivity; vm_compute in HE; discriminate HE.
Qed.

(** The optional texts among the fields of a key. *)
Definition text_fields : list (string * (jwk -> option string)) := [("kty", jk_kty); ("use", jk_use); ("crv", jk_crv); ("kid", jk_kid)].

Lemma plain_ok : forall k, unique_keys (jk_other k) -> jwk_plain k -> jwk_ok k.
Proof. intros k HU HP. split; [exact HU|]. apply Forall_forall. intros x Hx. apply HP. exact Hx. Qed.
Lemma names_app : forall V (a b : list (string * V)), keys (a ++ b)%list = (keys a ++ keys b)%list.
Proof. intros. unfold keys. apply map_app. Qed.
Lemma smap_names : forall m, keys (smap m) = keys m.
Proof. intros m. unfold keys, smap. rewrite map_map. apply map_ext. now intros [a b]. Qed.
(** The members of a key before the custom ones. *)
Definition own_members (k : jwk) : list (string * json) :=
  (sopt "kty" jstr (jk_kty k) ++ sopt "use" jstr (jk_use k) ++ sopt "crv" jstr (jk_crv k)
   ++ [("key_ops", JArr (map (fun o => jstr (key_ops_name o)) (jk_key_ops k))); ("alg", jstr (key_algorithm_name (jk_alg k)))]
   ++ sopt "kid" jstr (jk_kid k) ++ sopt "epk" ser_epk (jk_epk k))%list.
Lemma key_members : forall k, ser_jwk k = JObj (own_members k ++ smap (jk_other k)).
Proof. intros k. unfold ser_jwk, own_members. f_equal. now rewrite <- !app_assoc. Qed.
Lemma own_names : forall k x, In x (keys (own_members k)) -> In x jwk_names.
Proof.
  intros k x H. unfold own_members in H. rewrite !names_app in H. unfold jwk_names.
  destruct (jk_kty k), (jk_use k), (jk_crv k), (jk_kid k), (jk_epk k); cbn in H; cbn; tauto.
Qed.
Lemma own_nodup : forall k, NoDup (keys (own_members k)).
Proof.
  intros k. unfold own_members. rewrite !names_app. destruct (jk_kty k), (jk_use k), (jk_crv k), (jk_kid k), (jk_epk k); cbn; repeat constructor; cbn; intuition discriminate.
Qed.
Lemma nodup_app : forall A (a b : list A), NoDup a -> NoDup b -> (forall x, In x a -> ~ In x b) -> NoDup (a ++ b).
Proof.
  intros A a b Ha Hb H. induction Ha as [|x a HN Ha IH]; [exact Hb|]. cbn. constructor.
  - rewrite in_app_iff. intros [HI|HI]; [contradiction|]. now apply (H x (or_introl eq_refl)).
  - apply IH. intros y Hy. apply H. now right.
Qed.
Lemma key_unique : forall k, jwk_ok k -> unique_keys (own_members k ++ smap (jk_other k)).
Proof.
  intros k [HU HF]. unfold unique_keys. change (NoDup (keys (own_members k ++ smap (jk_other k))%list)). rewrite names_app, smap_names.
  unfold fresh_keys in HF. rewrite Forall_forall in HF. apply nodup_app; [apply own_nodup|exact HU|]. intros x H1 H2. apply (HF x H2). now apply (own_names k).
Qed.
Lemma key_read : forall {bf} E i k, env_ok E -> jwk_ok k -> jwk_text bf (ser_jwk k) (re_jwk (rt E i) k).
Proof. intros bf E i k HE HK. apply (jwk_reader (rt E i) (env_drt E i HE)). now apply de_jwk_ser. Qed.
Lemma permuted : forall es es', unique_keys es -> Permutation es es' -> reordered (JObj es) (JObj es').
Proof. intros es es' HU HP. eapply ro_obj; [exact HU|exact HP|]. induction es' as [|x l IH] in |- *; constructor; [|assumption]. split; [reflexivity|apply ro_same]. Qed.

(** A new member whose name is not reserved. *)
Theorem C61_custom_member : forall bf E i k n v, env_ok E -> unique_keys (jk_other k) -> jwk_plain k -> ~ In n jwk_names ->
  exists k2, de_jwk (rt E i) bf (ser_jwk (jwk_add_other k n v)) = Some k2 /\ map_get n (jk_other k2) = Some v /\
    (forall n', n' <> n -> map_get n' (jk_other k2) = map_get n' (jk_other k)) /\
    jk_key_ops k2 = jk_key_ops k /\ jk_alg k2 = jk_alg k /\ jk_epk k2 = jk_epk k /\ (forall n' f, In (n', f) text_fields -> f k2 = f k).
Proof.
  intros bf E i k n v HE HU HP HN. assert (HK : jwk_ok (jwk_add_other k n v)).
  { split; [apply map_insert_NoDup; exact HU|]. apply Forall_forall. intros x Hx. apply map_insert_keys in Hx. destruct Hx as [->|Hx]; [exact HN|]. now apply HP. }
  eexists. split; [apply de_jwk_ser; exact HK|]. cbn [re_jwk jk_other jk_kty jk_use jk_crv jk_kid jk_key_ops jk_alg jk_epk jwk_add_other].
  assert (G : forall x, map_get x (hord (rt E i) string (map_insert n v (jk_other k))) = map_get x (map_insert n v (jk_other k))).
  { intros x. symmetry. apply map_get_perm; [apply map_insert_NoDup; exact HU|]. symmetry. apply (env_drt E i HE). }
  split; [rewrite G; apply map_get_insert_same|]. split; [intros n' N; rewrite G; now apply map_get_insert_other|]. repeat (split; [reflexivity|]).
  intros n' f HI. cbn in HI. repeat (destruct HI as [HI|HI]; [injection HI as <- <-; reflexivity|]). destruct HI.
Qed.
Ltac each H := cbn in H; repeat (destruct H as [H|H]; [injection H as <- <-; first [reflexivity|congruence|cbn; tauto]|]); destruct H.
Ltac last_first := cbn [sopt app]; etransitivity; [apply Permutation_cons_append|]; rewrite <- ?app_assoc; cbn [app]; rewrite <- ?app_assoc; cbn [app]; rewrite <- ?app_assoc; reflexivity.
(** A name of an optional text that the key does not have: what was added as a custom member is read as that field. *)
Theorem C61_captured : forall bf E i k n f v, env_ok E -> unique_keys (jk_other k) -> jwk_plain k -> In (n, f) text_fields -> f k = None ->
  exists k2, de_jwk (rt E i) bf (ser_jwk (jwk_add_other k n v)) = Some k2 /\ f k2 = Some v /\ same_map (jk_other k2) (jk_other k) /\
    jk_key_ops k2 = jk_key_ops k /\ jk_alg k2 = jk_alg k /\ jk_epk k2 = jk_epk k /\ (forall n' f', In (n', f') text_fields -> n' <> n -> f' k2 = f' k).
Proof.
  intros bf E i k n f v HE HU HP HI HN.
  assert (G : exists kf, reordered (ser_jwk kf) (ser_jwk (jwk_add_other k n v)) /\ jwk_ok kf /\ f kf = Some v /\ jk_other kf = jk_other k /\
    jk_key_ops kf = jk_key_ops k /\ jk_alg kf = jk_alg k /\ jk_epk kf = jk_epk k /\ (forall n' f', In (n', f') text_fields -> n' <> n -> f' kf = f' k)).
  { assert (HF : smap (map_insert n v (jk_other k)) = (smap (jk_other k) ++ [(n, jstr v)])%list).
    { rewrite map_insert_fresh; [unfold smap; now rewrite map_app|]. intros H. apply (HP _ H). cbn in HI. unfold jwk_names. each HI. }
    assert (HO : forall kf, jk_other kf = jk_other k -> jwk_ok kf) by (intros kf Hk; apply plain_ok; unfold jwk_plain; now rewrite Hk).
    cbn in HI. destruct HI as [HI|[HI|[HI|[HI|[]]]]]; injection HI as <- <-.
    - exists {| jk_kty := Some v; jk_use := jk_use k; jk_crv := jk_crv k; jk_key_ops := jk_key_ops k; jk_alg := jk_alg k; jk_kid := jk_kid k; jk_epk := jk_epk k; jk_other := jk_other k |}.
      split; [|split; [now apply HO|repeat (split; [reflexivity|]); intros n' f' H N; each H]].
      rewrite !key_members. apply permuted; [apply key_unique; now apply HO|]. unfold own_members. cbn [jk_kty jk_use jk_crv jk_key_ops jk_alg jk_kid jk_epk jk_other jwk_add_other].
      rewrite HF, HN. last_first.
    - exists {| jk_kty := jk_kty k; jk_use := Some v; jk_crv := jk_crv k; jk_key_ops := jk_key_ops k; jk_alg := jk_alg k; jk_kid := jk_kid k; jk_epk := jk_epk k; jk_other := jk_other k |}.
      split; [|split; [now apply HO|repeat (split; [reflexivity|]); intros n' f' H N; each H]].
      rewrite !key_members. apply permuted; [apply key_unique; now apply HO|]. unfold own_members. cbn [jk_kty jk_use jk_crv jk_key_ops jk_alg jk_kid jk_epk jk_other jwk_add_other].
      rewrite HF, HN, <- !app_assoc. apply Permutation_app_head. last_first.
    - exists {| jk_kty := jk_kty k; jk_use := jk_use k; jk_crv := Some v; jk_key_ops := jk_key_ops k; jk_alg := jk_alg k; jk_kid := jk_kid k; jk_epk := jk_epk k; jk_other := jk_other k |}.
      split; [|split; [now apply HO|repeat (split; [reflexivity|]); intros n' f' H N; each H]].
      rewrite !key_members. apply permuted; [apply key_unique; now apply HO|]. unfold own_members. cbn [jk_kty jk_use jk_crv jk_key_ops jk_alg jk_kid jk_epk jk_other jwk_add_other].
      rewrite HF, HN, <- !app_assoc. do 2 apply Permutation_app_head. last_first.
    - exists {| jk_kty := jk_kty k; jk_use := jk_use k; jk_crv := jk_crv k; jk_key_ops := jk_key_ops k; jk_alg := jk_alg k; jk_kid := Some v; jk_epk := jk_epk k; jk_other := jk_other k |}.
      split; [|split; [now apply HO|repeat (split; [reflexivity|]); intros n' f' H N; each H]].
      rewrite !key_members. apply permuted; [apply key_unique; now apply HO|]. unfold own_members. cbn [jk_kty jk_use jk_crv jk_key_ops jk_alg jk_kid jk_epk jk_other jwk_add_other].
      rewrite HF, HN, <- !app_assoc. do 4 apply Permutation_app_head. last_first. }
  destruct G as [kf [HR [HK [G1 [G2 [G3 [G4 [G5 G6]]]]]]]]. pose proof (jwk_steady _ _ _ HR (key_read (bf := bf) E i kf HE HK)) as HT.
  apply (jwk_reader (rt E i) (env_drt E i HE)) in HT. destruct HT as [k2 [HD [S1 [S2 [S3 [S4 [S5 [S6 [S7 S8]]]]]]]]].
  cbn [re_jwk jk_kty jk_use jk_crv jk_key_ops jk_alg jk_kid jk_epk jk_other] in *.
  assert (GF : forall n' f', In (n', f') text_fields -> f' k2 = f' kf).
  { intros n' f' H. cbn in H. repeat (destruct H as [H|H]; [injection H as <- <-; congruence|]). destruct H. }
  exists k2. split; [exact HD|]. split; [rewrite (GF n f HI); exact G1|]. split.
  - unfold same_map in *. symmetry in S8. etransitivity; [exact S8|]. rewrite G2. apply (env_drt E i HE).
  - split; [congruence|]. split; [congruence|]. split; [congruence|]. intros n' f' H N. rewrite (GF _ _ H). now apply (G6 n').
Qed.
(** Every other reserved name makes the key unreadable. *)
Lemma twice : forall fs a b k x y j, In (k, x) a -> In (k, y) b -> ~ given fs (JObj (a ++ b)) k j /\ ~ omitted (JObj (a ++ b)) k.
Proof.
  intros fs a b k x y j Ha Hb. split; intros H; inversion H; subst.
  - match goal with HO : only _ _ _ |- _ => apply occ_only in HO; rewrite occ_app in HO end.
    assert (O : forall l z, In (k, z) l -> occ k l <> []).
    { intros l z Hl HO. apply occ_missing in HO. apply HO. apply in_map_iff. now exists (k, z). }
    apply O in Ha, Hb. destruct (occ k a) as [|p [|q l]]; [congruence| |discriminate]. destruct (occ k b); [congruence|discriminate].
  - match goal with HM : missing _ _ |- _ => apply HM end. apply in_map_iff. exists (k, x). split; [reflexivity|]. apply in_or_app. now left.
Qed.
Theorem C61_unreadable : forall bf E i k n v, env_ok E -> In n jwk_names -> (forall f, In (n, f) text_fields -> f k <> None) ->
  de_jwk (rt E i) bf (ser_jwk (jwk_add_other k n v)) = None.
Proof.
  intros bf E i k n v HE HI HF. destruct (de_jwk (rt E i) bf (ser_jwk (jwk_add_other k n v))) as [k2|] eqn:ED; [|reflexivity]. exfalso.
  apply (jwk_reader (rt E i) (env_drt E i HE)) in ED. rewrite key_members in ED. change (own_members (jwk_add_other k n v)) with (own_members k) in ED. cbn [jwk_add_other jk_other] in ED.
  assert (HB : In (n, jstr v) (smap (map_insert n v (jk_other k)))).
  { unfold smap. apply in_map_iff. exists (n, v). split; [reflexivity|]. apply map_get_In. apply map_get_insert_same. }
  destruct ED as [es [EE [T1 [T2 [T3 [T4 [T5 [T6 [T7 _]]]]]]]]].
  assert (OPT : forall A (P : json -> A -> Prop) o x, In (n, x) (own_members k) -> ~ optional [] (JObj (own_members k ++ smap (map_insert n v (jk_other k)))) n P o).
  { intros A P o x Hx HO. assert (TW := fun j => twice [] _ _ n x (jstr v) j Hx HB). destruct o as [w|]; cbn [optional] in HO.
    - destruct HO as [y [HG _]]. exact (proj1 (TW y) HG).
    - destruct HO as [HO|HO]; [exact (proj2 (TW JNull) HO)|exact (proj1 (TW JNull) HO)]. }
  assert (REQ : forall A (P : json -> A -> Prop) w x, In (n, x) (own_members k) -> ~ required [] (JObj (own_members k ++ smap (map_insert n v (jk_other k)))) n P w).
  { intros A P w x Hx [y [HG _]]. exact (proj1 (twice [] _ _ n x (jstr v) y Hx HB) HG). }
  cbn in HI. destruct HI as [<-|[<-|[<-|[<-|[<-|[<-|[<-|[]]]]]]]].
  - specialize (HF jk_kty). destruct (jk_kty k) as [s|] eqn:EK; [|elim HF; [cbn; tauto|reflexivity]]. apply (OPT _ _ _ (jstr s)) in T1; [exact T1|]. unfold own_members. rewrite EK, !in_app_iff. cbn. tauto.
  - specialize (HF jk_use). destruct (jk_use k) as [s|] eqn:EK; [|elim HF; [cbn; tauto|reflexivity]]. apply (OPT _ _ _ (jstr s)) in T2; [exact T2|]. unfold own_members. rewrite EK, !in_app_iff. cbn. tauto.
  - specialize (HF jk_crv). destruct (jk_crv k) as [s|] eqn:EK; [|elim HF; [cbn; tauto|reflexivity]]. apply (OPT _ _ _ (jstr s)) in T3; [exact T3|]. unfold own_members. rewrite EK, !in_app_iff. cbn. tauto.
  - apply (REQ _ _ _ (JArr (map (fun o => jstr (key_ops_name o)) (jk_key_ops k)))) in T4; [exact T4|]. unfold own_members. rewrite !in_app_iff. cbn. tauto.
  - apply (REQ _ _ _ (jstr (key_algorithm_name (jk_alg k)))) in T5; [exact T5|]. unfold own_members. rewrite !in_app_iff. cbn. tauto.
  - specialize (HF jk_kid). destruct (jk_kid k) as [s|] eqn:EK; [|elim HF; [cbn; tauto|reflexivity]]. apply (OPT _ _ _ (jstr s)) in T6; [exact T6|]. unfold own_members. rewrite EK, !in_app_iff. cbn. tauto.
  - destruct (optional_value _ _ _ _ _ _ (jstr v) T7) as [w [HS _]]; [apply in_or_app; now right|discriminate|]. inversion HS.
Qed.
Theorem C61_ephemeral : forall bf E i k kty crv x y, env_ok E -> unique_keys (jk_other k) -> jwk_plain k ->
  exists k2, de_jwk (rt E i) bf (ser_jwk (jwk_ephemeral k kty crv x y)) = Some k2 /\ jk_epk k2 = Some {| ep_kty := kty; ep_crv := crv; ep_x := x; ep_y := y |} /\
    same_map (jk_other k2) (jk_other k) /\ jk_key_ops k2 = jk_key_ops k /\ jk_alg k2 = jk_alg k /\ (forall n f, In (n, f) text_fields -> f k2 = f k).
Proof.
  intros bf E i k kty crv x y HE HU HP. eexists. split; [apply de_jwk_ser; now apply plain_ok|]. split; [reflexivity|]. split; [apply (env_drt E i HE)|]. split; [reflexivity|]. split; [reflexivity|].
  intros n f HI. each HI.
Qed.
(** Such a key in the header of a message: the message is lost with it. *)
Theorem C61_message_lost : forall E m k n v, env_ok E -> rust_message m -> avoids envelope_names (dh_other (m_did m)) ->
  jh_jwk (m_jwm m) = Some (jwk_add_other k n v) \/ jh_epk (m_jwm m) = Some (jwk_add_other k n v) ->
  In n jwk_names -> (forall f, In (n, f) text_fields -> f k <> None) ->
  forall sk pk spk, receive E (as_raw_json m) sk pk spk = Err ESerde.
Proof.
  intros E m k n v HE HM HA HK HI HF sk pk spk. destruct (raw_json_text m HM) as [HP _].
  assert (G : message_from_str (rt E 0) (as_raw_json m) = None).
  { destruct (message_from_str (rt E 0) (as_raw_json m)) as [m2|] eqn:ER; [|reflexivity]. exfalso. apply C56_message_sound in ER; [|exact HE]. destruct ER as [j [HD HT]].
    apply document_iff in HD. rewrite HP in HD. apply some_inj in HD. subst j. destruct HT as [es [EE [_ [_ [_ [HJ _]]]]]].
    destruct HJ as [_ [_ [_ [_ [_ [_ [HJ [HX _]]]]]]]].
    assert (HW : exists w, jwk_text true (ser_jwk (jwk_add_other k n v)) w).
    { destruct HK as [HK|HK].
      - eapply (optional_value _ _ _ _ _ _ _ HJ); [|discriminate]. unfold message_entries, jwm_entries. rewrite HK, !in_app_iff. cbn. tauto.
      - eapply (optional_value _ _ _ _ _ _ _ HX); [|discriminate]. unfold message_entries, jwm_entries. rewrite HK, !in_app_iff. cbn. tauto. }
    destruct HW as [w HW]. apply (jwk_reader (rt E 0) (env_drt E 0 HE)) in HW. destruct HW as [w' [HW _]]. rewrite C61_unreadable in HW; [discriminate|assumption|assumption|assumption]. }
  unfold receive, get_message_type. rewrite HP. cbn [oerr rbind].
  rewrite <- ser_message_entries, (unknown_plain m HA). cbn [oerr rbind un_iv un_signatures un_signature orb]. rewrite G. reflexivity.
Qed.
(** The three cases of a name. *)
Example C61_example : unique_keys (jk_other jwk_new) /\ jwk_plain jwk_new /\ ~ In "iv" jwk_names /\
  (In ("kid", jk_kid) text_fields /\ jk_kid jwk_new = None) /\ (In "alg" jwk_names /\ forall f, In ("alg", f) text_fields -> f jwk_new <> None).
Proof.
  split; [constructor|]. split; [intros x []|]. split; [cbn; intuition discriminate|]. split; [cbn; tauto|]. split; [cbn; tauto|]. intros f H. cbn in H. intuition discriminate.
Qed.
(** Recipients given to a message by hand arrive as they were given. *)
Theorem C61_recipients : forall E m l sk pk spk, env_ok E -> sendable E m -> m_recipients m = Some (map (fun p => recipient_new (fst p) (snd p)) l) ->
  jh_typ (m_jwm m) <> DidCommJwe -> jh_typ (m_jwm m) <> DidCommJws -> avoids envelope_names (dh_other (m_did m)) ->
  exists m' rs, receive E (as_raw_json m) sk pk spk = Ok m' /\ m_recipients m' = Some rs /\
    Forall2 (fun p r => same_jwk (fst p) (rc_header r) /\ rc_encrypted_key r = snd p) l rs.
Proof.
  intros E m l sk pk spk HE HS HR N1 N2 HA. exists (re_message (rt E 9) m).
  pose proof (re_message_same E 9 m HE) as [_ [_ [HQ _]]]. rewrite HR in HQ. unfold orel in HQ. destruct (m_recipients (re_message (rt E 9) m)) as [rs|] eqn:EQ; [|contradiction]. rename HQ into HF.
  exists rs. split; [apply receive_plain; [exact HS|now split|exact HA]|]. split; [reflexivity|]. clear - HF. revert rs HF.
  induction l as [|p l IH]; intros rs HF; inversion HF as [|? r ? rs' H1 H2]; subst; constructor; [|now apply IH].
  destruct H1 as [H1 H3]. split; [exact H1|]. symmetry. exact H3.
Qed.
Definition ex_with_recipient : message :=
  {| m_jwm := m_jwm ex_small; m_did := m_did ex_small; m_recipients := Some [recipient_new ex_jwk "a2V5"]; m_body := m_body ex_small;
     m_flat_jwe := false; m_flat_jws := false; m_attachments := [] |}.
Example C61_recipients_example : sendable toy ex_with_recipient /\ m_recipients ex_with_recipient = Some (map (fun p => recipient_new (fst p) (snd p)) [(ex_jwk, "a2V5")]).
Proof.
  split; [|reflexivity]. destruct ex_small_sendable as [S1 S2 S3 S4 S5 S6 S7]. constructor; try assumption.
  - destruct S1. constructor; try assumption.
    + match goal with |- Forall _ ?l => let l' := eval vm_compute in l in change l with l' end. forall_tac str_tac.
    + constructor; [|constructor]. cbn [rc_header recipient_new]. unfold rust_jwk, unique_keys, ex_jwk. cbn. nodup_tac.
  - constructor; [|constructor]. unfold jwk_plain. cbn [rc_header recipient_new ex_jwk jk_other]. avoid_tac.
Qed.
(** A new key is an object with the two members that are always written, and is read as itself. *)
Theorem C61_new_key : forall bf E i, env_ok E -> print (ser_jwk jwk_new) = "{""key_ops"":[],""alg"":""none""}" /\ exists k, de_jwk (rt E i) bf (ser_jwk jwk_new) = Some k /\ same_jwk jwk_new k.
Proof.
  intros bf E i HE. split; [vm_compute; reflexivity|]. exists (re_jwk (rt E i) jwk_new). split; [|now apply re_jwk_same]. apply de_jwk_ser. split; [constructor|]. constructor.
Qed.
Definition ex_bad_key : jwm_header :=
  {| jh_typ := DidCommRaw; jh_enc := None; jh_kid := None; jh_skid := None; jh_alg := None; jh_jku := None; jh_jwk := Some (jwk_add_other jwk_new "alg" "EdDSA");
     jh_epk := None; jh_cty := None |}.
Example C61_lost_example : rust_message (with_jwm ex_small ex_bad_key) /\ avoids envelope_names (dh_other (m_did (with_jwm ex_small ex_bad_key))).
Proof.
  split; [|exact ex_small_free]. destruct (sd_rust _ _ ex_small_sendable). constructor; try assumption.
  - cbn. repeat constructor.
  - cbn. unfold rust_jwk, unique_keys. cbn. repeat constructor. intros [].
Qed.

(** ** C62 *)

Lemma re_signature_same : forall E i s, env_ok E -> same_signature s (re_signature (rt E i) s).
Proof.
  intros E i s HE. assert (G : forall o, orel same_header o (option_map (re_jwm (rt E i)) o)) by (intros [h|]; constructor; now apply re_jwm_same).
  split; [apply G|]. split; [apply G|reflexivity].
Qed.
(** Whatever list of signatures the envelope is made of: reading gives the payload and the same list. *)
Theorem C62_read : forall E i payload l, env_ok E -> rust_string payload -> Forall good_signature l ->
  exists w l', jws_from_str (rt E i) (jws_json (jws_new payload l)) = Some w /\ js_payload w = payload /\ js_signatures w = Some l' /\ Forall2 same_signature l l'.
Proof.
  intros E i payload l HE HP HL. destruct (jws_round (rt E i) (jws_new payload l)) as [_ HR]; [split; [exact HP|split; [exact I|exact HL]]|].
  eexists. eexists. split; [exact HR|]. split; [reflexivity|]. split; [reflexivity|]. clear HL HR. induction l as [|s l IH]; constructor; [now apply re_signature_same|exact IH].
Qed.
Theorem C62_read_flat : forall E i payload s, env_ok E -> rust_string payload -> good_signature s ->
  exists w s', jws_from_str (rt E i) (jws_json (jws_new_flat payload s)) = Some w /\ js_payload w = payload /\ js_signatures w = None /\ js_signature w = Some s' /\ same_signature s s'.
Proof.
  intros E i payload s HE HP HS. destruct (jws_round (rt E i) (jws_new_flat payload s)) as [_ HR]; [split; [exact HP|split; [exact HS|exact I]]|].
  eexists. eexists. split; [exact HR|]. split; [reflexivity|]. split; [reflexivity|]. split; [reflexivity|]. now apply re_signature_same.
Qed.
(** The general envelope with one signature and the flattened envelope are accepted under the same circumstances. *)
Lemma entries_equal : forall R payload s, jws_entries (re_jws R (jws_new payload [s])) = jws_entries (re_jws R (jws_new_flat payload s)).
Proof. reflexivity. Qed.
Theorem C62_one_entry : forall E payload s, rust_string payload -> good_signature s ->
  (forall R1 R2 key, verify E R1 R2 (jws_json (jws_new payload [s])) key = verify E R1 R2 (jws_json (jws_new_flat payload s)) key) /\
  (forall sk pk spk, receive E (jws_json (jws_new payload [s])) sk pk spk = receive E (jws_json (jws_new_flat payload s)) sk pk spk).
Proof.
  intros E payload s HP HS.
  assert (G1 : good_jws (jws_new payload [s])) by (split; [exact HP|split; [exact I|now constructor]]).
  assert (G2 : good_jws (jws_new_flat payload s)) by (split; [exact HP|split; [exact HS|exact I]]).
  assert (V : forall R1 R2 key, verify E R1 R2 (jws_json (jws_new payload [s])) key = verify E R1 R2 (jws_json (jws_new_flat payload s)) key).
  { intros R1 R2 key. unfold verify. destruct (jws_round R1 _ G1) as [-> _]. destruct (jws_round R1 _ G2) as [-> _]. cbn [oerr rbind]. rewrite entries_equal. reflexivity. }
  split; [exact V|]. intros sk pk spk.
  assert (T : forall R, get_message_type R (jws_json (jws_new payload [s])) = Ok DidCommJws /\ get_message_type R (jws_json (jws_new_flat payload s)) = Ok DidCommJws).
  { intros R. split; apply classify_jws; [right; now exists s, []|now left]. }
  unfold receive. destruct (T (rt E 0)) as [-> ->]. cbn [rbind is_jwe_type]. destruct (T (rt E 4)) as [-> ->]. cbn [rbind is_jws_type].
  replace (receive_jws E (jws_json (jws_new payload [s])) spk) with (receive_jws E (jws_json (jws_new_flat payload s)) spk); [reflexivity|].
  unfold receive_jws. rewrite !jws_not_message. destruct (jws_round (rt E 8) _ G1) as [_ ->]. destruct (jws_round (rt E 8) _ G2) as [_ ->]. rewrite entries_equal. cbn [jws_entries re_jws jws_new_flat js_signatures js_signature option_map rbind].
  cbn [verify_entries]. destruct (sig_get _ jh_alg); [|reflexivity]. destruct (signing_key _ _); [|reflexivity|reflexivity]. cbn [rbind]. now rewrite V.
Qed.
(** Without a signature nothing is accepted. *)
Theorem C62_no_entry : forall E payload, rust_string payload ->
  (forall R1 R2 key, verify E R1 R2 (jws_json (jws_new payload [])) key = Err EJwsParse) /\
  (forall sk pk spk, receive E (jws_json (jws_new payload [])) sk pk spk = Err EJwsParse).
Proof.
  intros E payload HP. assert (G : good_jws (jws_new payload [])) by (split; [exact HP|split; [exact I|constructor]]).
  split; [intros R1 R2 key; unfold verify; destruct (jws_round R1 _ G) as [-> _]; reflexivity|]. intros sk pk spk.
  assert (T : forall R, get_message_type R (jws_json (jws_new payload [])) = Ok DidCommJws).
  { intros R. unfold get_message_type, jws_json. rewrite parse_print by apply wf_ser_jws. reflexivity. }
  unfold receive. rewrite T. cbn [rbind is_jwe_type]. rewrite T. cbn [rbind is_jws_type]. unfold receive_jws. rewrite jws_not_message. destruct (jws_round (rt E 8) _ G) as [_ ->]. reflexivity.
Qed.
(** What [sign] returns is the envelope of these constructors: one signature, or the same signature once per receiver. *)
Theorem C62_sign : forall m sw key text, sign m sw key = Ok text ->
  exists h payload s, (m_flat_jws m = true -> text = jws_json (jws_new_flat payload (signature_new (Some h) None s))) /\
    (m_flat_jws m = false -> exists l, text = jws_json (jws_new payload l) /\ List.length l = List.length (dh_to (m_did m)) /\
       forall x, In x l -> x = signature_new (Some h) None s) /\
    jh_typ h = DidCommJws /\ jh_alg h = jh_alg (m_jwm m) /\ sw key (header_b64 h ++ "." ++ payload) = Ok s.
Proof.
  intros m sw key text H. unfold sign in H. cbn [jh_alg jh_with_typ] in H. destruct (jh_alg (m_jwm m)) as [a|] eqn:EA; [|discriminate].
  destruct (sw key _) as [s| |] eqn:ES; cbn [rbind] in H; try discriminate. apply ok_inj in H.
  exists (jh_with_typ (m_jwm m) DidCommJws), (b64_encode (message_json (with_jwm m jwm_default))), s. cbn [m_flat_jws with_jwm] in H.
  split; [|split; [|split; [reflexivity|split; [exact EA|exact ES]]]].
  - intros F. rewrite F in H. now symmetry.
  - intros F. rewrite F in H. eexists. split; [symmetry; exact H|]. split; [apply map_length|]. intros x HX. apply in_map_iff in HX. destruct HX as [_ [<- _]]. reflexivity.
Qed.
Example C62_sign_example : exists text, sign (as_jws ex_small EdDsa) (fun _ _ => Ok "sig") "key" = Ok text.
Proof. eexists. reflexivity. Qed.
Example C62_example : rust_string "payload" /\ good_signature (signature_new (Some jwm_default) None "sig").
Proof. split; [reflexivity|]. split; [exact default_header|exact I]. Qed.

Print Assumptions C60_from_str.
Print Assumptions C60_error.
Print Assumptions C60_bytes.
Print Assumptions C60_round_trip.
Print Assumptions C60_compact_refused.
Print Assumptions C60_message_refused.
Print Assumptions C61_algorithm_text.
Print Assumptions C61_custom_member.
Print Assumptions C61_captured.
Print Assumptions C61_unreadable.
Print Assumptions C61_ephemeral.
Print Assumptions C61_message_lost.
Print Assumptions C61_recipients.
Print Assumptions C61_new_key.
Print Assumptions C62_read.
Print Assumptions C62_read_flat.
Print Assumptions C62_one_entry.
Print Assumptions C62_no_entry.
Print Assumptions C62_sign.
