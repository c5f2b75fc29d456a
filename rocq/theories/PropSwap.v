(** Other content in a sealed envelope: C74. *)

From Coq Require Import Ascii String Arith ZArith NArith List Bool Permutation Lia.
From Verif Require Import Bytes BytesFacts Base64 Base64Facts Utf8 Utf8Facts Json JsonFacts SpecJson GrammarFacts Value ValueFacts Types Serde SerdeFacts
  Message Attach ChaCha Sha256 Aead Envelope Spec SpecFacts DecodeFacts PlainFacts CodecFacts SetterFacts SpecText CryptoLaws Examples PropPlain
  SpecSign HeaderFacts SignFacts SignFacts2 PropSign SpecSeal SealFacts SealFacts2 SealFacts3 PropSeal SpecRoute RouteFacts PropRoute KeyFacts PropKey AeadFacts AeadFacts2 SignSize PrimFacts3
  PropAead Float PropFloat SpecEnv SameFacts3 Curve CurveFacts PropCurve EdFacts PropEd PropWhole.
Import ListNotations.
Local Open Scope nat_scope.
Local Open Scope string_scope.

(** ** What somebody does who has read an envelope and holds no key at all *)

(** The members called [name] get the value [v]. *)
Definition put (name v : string) (es : list (string * json)) : list (string * json) :=
  map (fun kv => if String.eqb (fst kv) name then (fst kv, jstr v) else kv) es.
(** The text of the member called [name]. *)
Definition text_at (name : string) (es : list (string * json)) : option string :=
  match map_get name es with Some (JStr _ s) => Some s | _ => None end.
(** [content] is encrypted under [cek] with the iv of the envelope and with its protected header, as transmitted, as associated data. The result
    is put where the ciphertext and the tag were. *)
Definition replaced (E : env) (a : crypto_algorithm) (cek text content : string) : option string :=
  match parse text with
  | Some (JObj es) =>
      match text_at "iv" es, text_at "protected" es with
      | Some iv, Some aad =>
          match b64_decode iv with
          | Some nonce =>
              match encryptor E a nonce cek content aad with
              | Ok c =>
                  let n := String.length c - 16 in
                  Some (print (JObj (put "ciphertext" (b64_encode (substring 0 n c)) (put "tag" (b64_encode (substring n 16 c)) es))))
              | _ => None
              end
          | None => None
          end
      | _, _ => None
      end
  | _ => None
  end.

(** ** Facts *)

Lemma put_app : forall name v a b, put name v (a ++ b) = (put name v a ++ put name v b)%list.
Proof. intros. unfold put. apply map_app. Qed.
Lemma put_other : forall name v es, ~ In name (map fst es) -> put name v es = es.
Proof.
  intros name v. induction es as [|[k x] es IH]; intros H; [reflexivity|]. cbn [put map fst]. destruct (String.eqb_spec k name) as [->|N].
  - elim H. now left.
  - change (map _ es) with (put name v es). rewrite IH; [reflexivity|]. intros G. apply H. now right.
Qed.
Definition middle (sh : option recipient * option (list recipient)) : list (string * json) :=
  (match fst sh with Some r => recipient_entries r | None => [] end ++ sopt "recipients" (fun l => JArr (map ser_recipient l)) (snd sh))%list.
Lemma middle_names : forall sh, incl (map fst (middle sh)) ["header"; "encrypted_key"; "recipients"].
Proof.
  intros [o l] x. unfold middle. cbn [fst snd]. rewrite map_app. intros H. apply in_app_or in H. destruct H as [H|H].
  - destruct o as [r|]; [|destruct H]. unfold recipient_entries in H. cbn in H. cbn. tauto.
  - destruct l as [l|]; [|destruct H]. cbn in H. cbn. tauto.
Qed.
Lemma ser_env : forall h sh ct tag iv, ser_jwe (sealed_env h sh ct tag iv) =
  JObj (("protected", jstr (header_b64 h)) :: middle sh ++ [("ciphertext", jstr (b64_encode ct)); ("iv", jstr (b64_encode iv)); ("tag", jstr (b64_encode tag))]).
Proof. intros h [o l] ct tag iv. unfold ser_jwe, middle. cbn [sealed_env je_protected je_unprotected je_recipient je_recipients je_ciphertext je_iv je_tag fst snd sopt app]. now rewrite <- app_assoc. Qed.
Lemma not_middle : forall sh name, In name ["protected"; "ciphertext"; "iv"; "tag"] -> ~ In name (map fst (middle sh)).
Proof. intros sh name H G. apply middle_names in G. cbn in H, G. intuition congruence. Qed.
Lemma map_get_skip : forall (name : string) (a b : list (string * json)), ~ In name (map fst a) -> map_get name (a ++ b) = map_get name b.
Proof.
  intros name. induction a as [|[k x] a IH]; intros b H; [reflexivity|]. cbn [app map_get]. destruct (String.eqb_spec name k) as [->|N]; [elim H; now left|].
  apply IH. intros G. apply H. now right.
Qed.
Lemma put_env : forall h sh ct tag iv ct' tag' es, ser_jwe (sealed_env h sh ct tag iv) = JObj es ->
  JObj (put "ciphertext" (b64_encode ct') (put "tag" (b64_encode tag') es)) = ser_jwe (sealed_env h sh ct' tag' iv).
Proof.
  intros h sh ct tag iv ct' tag' es H. rewrite ser_env in *. injection H as <-. f_equal.
  generalize (jstr (header_b64 h)) (jstr (b64_encode ct)) (jstr (b64_encode iv)) (jstr (b64_encode tag)) (b64_encode ct') (b64_encode tag'). intros p c i t c' t'.
  change (("protected", p) :: middle sh ++ [("ciphertext", c); ("iv", i); ("tag", t)])%list with ([("protected", p)] ++ middle sh ++ [("ciphertext", c); ("iv", i); ("tag", t)])%list.
  rewrite !put_app. rewrite (put_other "tag" t' (middle sh)) by (apply not_middle; cbn; tauto). rewrite (put_other "ciphertext" c' (middle sh)) by (apply not_middle; cbn; tauto). reflexivity.
Qed.
Lemma texts_env : forall h sh ct tag iv es, ser_jwe (sealed_env h sh ct tag iv) = JObj es ->
  text_at "iv" es = Some (b64_encode iv) /\ text_at "protected" es = Some (header_b64 h).
Proof.
  intros h sh ct tag iv es H. rewrite ser_env in H. injection H as <-. unfold text_at. split; [|reflexivity].
  cbn [map_get]. change (("iv" =? "protected")%string) with false. cbv iota. rewrite map_get_skip by (apply not_middle; cbn; tauto). reflexivity.
Qed.
(** What [replaced] makes of an envelope. *)
Lemma replaced_env : forall E a cek h sh ct tag iv content,
  replaced E a cek (jwe_json (sealed_env h sh ct tag iv)) content =
  match encryptor E a iv cek content (header_b64 h) with
  | Ok c => Some (jwe_json (sealed_env h sh (take (String.length c - 16) c) (take 16 (drop (String.length c - 16) c)) iv))
  | _ => None
  end.
Proof.
  intros E a cek h sh ct tag iv content. unfold replaced, jwe_json. rewrite parse_print by apply wf_ser_jwe.
  destruct (ser_jwe (sealed_env h sh ct tag iv)) as [| | | | |es] eqn:ES; try (rewrite ser_env in ES; discriminate ES).
  destruct (texts_env _ _ _ _ _ _ ES) as [-> ->]. rewrite b64_decode_encode. destruct (encryptor E a iv cek content (header_b64 h)) as [c| |]; [|reflexivity|reflexivity].
  cbv zeta. f_equal. f_equal. rewrite substring_take, substring_drop. now apply (put_env h sh ct tag).
Qed.
Lemma take_rest : forall s, 16 <= String.length s -> take 16 (drop (String.length s - 16) s) = drop (String.length s - 16) s.
Proof. intros s H. apply take_all. rewrite drop_length. lia. Qed.

(** ** C74 *)

Lemma replaced_received : forall E rnd m sk keys text a i dest rsk sender signing from q text',
  env_ok E -> crypto_ok E -> rand_ok rnd -> sendable E m -> few_custom (m_jwm m) -> jh_alg (m_jwm m) = Some (wrap_name a) -> usable a -> dh_from (m_did m) = Some from ->
  seal E rnd m sk keys = Ok text -> nth_error (dh_to (m_did m)) i = Some dest -> String.length rsk = 32 ->
  known_key E dest (given_key keys i) (x_pub E rsk) -> known_key E from sender (x_pub E sk) -> others_closed E rnd m sk keys rsk i ->
  sendable E q -> avoids envelope_names (dh_other (m_did q)) -> jh_typ (m_jwm q) <> DidCommJws ->
  replaced E a seal_cek text (as_raw_json q) = Some text' ->
  receive E text' (Some rsk) sender signing = Ok (re_message (rt E 9) (re_message (rt E 3) q)).
Proof.
  intros E rnd m sk keys text a i dest rsk spk gpk from q text' HE HC [A1 A2 A3] HS HF HA HU HFr HSeal HN L HK HSK HB HQ HQA HQT HT.
  destruct (seal_ok _ _ _ _ _ _ HSeal) as [LS _].
  apply seal_text in HSeal. destruct HSeal as [a' [rs [sh [c0 [H1 [H2 [H3 [H4 [H5 [_ [H6 [H7 [H8 ->]]]]]]]]]]]]].
  rewrite replaced_env in HT. destruct (encryptor E a (sr_iv rnd) seal_cek (as_raw_json q) (header_b64 (seal_header m))) as [c| |] eqn:EC; [|discriminate|discriminate].
  apply some_inj in HT. subst text'. destruct (cipher_round E a _ _ _ _ c HC HU EC) as [_ [HL _]]. rewrite take_rest by exact HL.
  assert (HPL : String.length (x_pub E sk) = 32) by (apply HC; exact LS).
  apply receive_sealed_text; auto; [apply classify_jwe|].
  apply (receive_jwe_env E a (seal_header m) sh rs c (sr_iv rnd) seal_cek rsk spk from (x_pub E sk)); auto; try lia.
  - eapply seal_header_good; eassumption.
  - now apply seal_header_few.
  - now rewrite seal_header_alg.
  - intros e HA1 HS1. apply (find_cek_seal E (rt E 1) e m rnd sk rsk spk keys rs i dest from); auto.
    + now apply env_drt.
    + congruence.
Qed.
(** There is one key with which everybody who has seen an envelope puts another message into it. The recipients open the result with their own
    keys and the key of the original sender, and get the other message, whoever it says it is from. *)
Theorem C74_replaced : exists cek, String.length cek = 32 /\ forall E rnd m sk keys text alg a i dest rsk sender signing from q text',
  env_ok E -> crypto_ok E -> rand_ok rnd -> sendable E m -> few_custom (m_jwm m) -> jh_alg (m_jwm m) = Some alg -> In (alg, a) wrap_table -> dh_from (m_did m) = Some from ->
  seal E rnd m sk keys = Ok text -> nth_error (dh_to (m_did m)) i = Some dest -> String.length rsk = 32 ->
  known_key E dest (given_key keys i) (x_pub E rsk) -> known_key E from sender (x_pub E sk) -> others_closed E rnd m sk keys rsk i ->
  sendable E q -> avoids envelope_names (dh_other (m_did q)) -> jh_typ (m_jwm q) <> DidCommJws ->
  replaced E a cek text (as_raw_json q) = Some text' ->
  exists m', receive E text' (Some rsk) sender signing = Ok m' /\ same_message q m' /\ flags_reset m'.
Proof.
  exists seal_cek. split; [exact seal_cek_length|].
  intros E rnd m sk keys text alg a i dest rsk spk gpk from q text' HE HC HR HS HF HA HI HFr HSeal HN L HK HSK HB HQ HQA HQT HT.
  apply crypto_alg_of_table, crypto_alg_of_ok in HI. destruct HI as [HU ->].
  eexists. split; [eapply (replaced_received E rnd m sk keys text a i dest rsk spk gpk from q text'); eassumption|]. split; [|apply re_message_flags].
  eapply same_message_trans; [|apply re_message_same; exact HE]. now apply re_message_same.
Qed.
(** A signature inside the envelope does not help: the other message needs none, even if the recipient passes the key of the signer. *)
Theorem C74_signed : exists cek, String.length cek = 32 /\ forall E rnd m sk keys sa ssk text alg a i dest rsk sender gpk from q text',
  env_ok E -> crypto_ok E -> rand_ok rnd -> sendable E m -> few_custom (m_jwm m) -> jh_alg (m_jwm m) = Some alg -> In (alg, a) wrap_table -> dh_from (m_did m) = Some from ->
  seal_signed E rnd m sk keys sa ssk = Ok text -> nth_error (dh_to (m_did m)) i = Some dest -> String.length rsk = 32 ->
  known_key E dest (given_key keys i) (x_pub E rsk) -> known_key E from sender (x_pub E sk) -> others_closed E rnd m sk keys rsk i ->
  sendable E q -> avoids envelope_names (dh_other (m_did q)) -> jh_typ (m_jwm q) <> DidCommJws ->
  replaced E a cek text (as_raw_json q) = Some text' ->
  exists m', receive E text' (Some rsk) sender (Some gpk) = Ok m' /\ same_message q m' /\ flags_reset m'.
Proof.
  exists seal_cek. split; [exact seal_cek_length|].
  intros E rnd m sk keys sa ssk text alg a i dest rsk spk gpk from q text' HE HC HR HS HF HA HI HFr HSeal HN L HK HSK HB HQ HQA HQT HT.
  apply crypto_alg_of_table, crypto_alg_of_ok in HI. destruct HI as [HU ->]. apply seal_signed_ok in HSeal. destruct HSeal as [s [_ HSeal]].
  set (sm := set_typ (with_body m (jws_tree (as_jws m sa) s)) DidCommJws) in *.
  assert (HSM : sendable E sm).
  { unfold sm, set_typ. apply with_jwm_sendable; [now apply jws_tree_sendable|]. apply good_typ. exact (sendable_header E m HS). }
  eexists. split; [apply (replaced_received E rnd sm sk keys text a i dest rsk spk (Some gpk) from q text'); assumption|]. split; [|apply re_message_flags].
  eapply same_message_trans; [|apply re_message_same; exact HE]. now apply re_message_same.
Qed.
(** It is always possible. *)
Theorem C74_possible : forall E rnd m sk keys text alg a cek content, crypto_total E -> rand_ok rnd -> jh_alg (m_jwm m) = Some alg -> In (alg, a) wrap_table ->
  seal E rnd m sk keys = Ok text -> String.length cek = 32 -> exists text', replaced E a cek text content = Some text'.
Proof.
  intros E rnd m sk keys text alg a cek content HT [_ _ A3] HA HI HSeal HL. apply crypto_alg_of_table, crypto_alg_of_ok in HI. destruct HI as [HU _].
  apply seal_text in HSeal. destruct HSeal as [a' [rs [sh [c0 [_ [_ [_ [_ [_ [_ [_ [_ [_ ->]]]]]]]]]]]]]. rewrite replaced_env.
  destruct (encryptor_total E a (sr_iv rnd) cek content (header_b64 (seal_header m)) HT HU HL A3) as [c ->]. eexists. reflexivity.
Qed.
(** Nothing else in the envelope changes. *)
Lemma put_differ : forall x y es, differ_only ["ciphertext"; "tag"] es (put "ciphertext" x (put "tag" y es)).
Proof.
  intros x y. unfold put, differ_only. induction es as [|[k v] es IH]; [constructor|]. cbn [map]. constructor; [|exact IH]. cbn [fst snd].
  destruct (String.eqb_spec k "tag") as [->|N1]; cbn [fst snd].
  - change (("tag" =? "ciphertext")%string) with false. cbv iota. cbn [fst snd]. split; [reflexivity|]. right. cbn. tauto.
  - destruct (String.eqb_spec k "ciphertext") as [->|N2]; cbn [fst snd]; split; try reflexivity; [right; cbn; tauto|now left].
Qed.
Theorem C74_rest : forall E rnd m sk keys text a cek content text', seal E rnd m sk keys = Ok text -> replaced E a cek text content = Some text' ->
  exists es es', document text (JObj es) /\ document text' (JObj es') /\ differ_only ["ciphertext"; "tag"] es es'.
Proof.
  intros E rnd m sk keys text a cek content text' HS H. apply seal_text in HS. destruct HS as [a' [rs [sh [c0 [_ [_ [_ [_ [_ [_ [_ [_ [_ ->]]]]]]]]]]]]].
  rewrite replaced_env in H. destruct (encryptor E a (sr_iv rnd) cek content (header_b64 (seal_header m))) as [c| |]; [|discriminate|discriminate].
  apply some_inj in H. subst text'. generalize (take (String.length c0 - 16) c0) (drop (String.length c0 - 16) c0) (take (String.length c - 16) c) (take 16 (drop (String.length c - 16) c)) (seal_header m) (sr_iv rnd).
  intros ct tag ct' tag' h iv. destruct (ser_jwe (sealed_env h sh ct tag iv)) as [| | | | |es] eqn:ES; try (rewrite ser_env in ES; discriminate ES).
  exists es, (put "ciphertext" (b64_encode ct') (put "tag" (b64_encode tag') es)). split; [|split; [|apply put_differ]].
  - apply document_iff. unfold jwe_json. rewrite parse_print by apply wf_ser_jwe. now rewrite ES.
  - apply document_iff. unfold jwe_json. rewrite parse_print by apply wf_ser_jwe. f_equal. symmetry. exact (put_env h sh ct tag iv ct' tag' es ES).
Qed.
(** With the key agreement and the ciphers of the crate no law is assumed, and it is possible for all messages of up to 64 MiB. *)
Theorem C74_real : exists cek, forall E rnd m sk keys text alg a i dest rsk sender signing from q,
  orders_ok E -> rand_ok rnd -> sendable (whole E) m -> few_custom (m_jwm m) -> jh_alg (m_jwm m) = Some alg -> In (alg, a) wrap_table -> dh_from (m_did m) = Some from ->
  seal (whole E) rnd m sk keys = Ok text -> nth_error (dh_to (m_did m)) i = Some dest -> String.length rsk = 32 ->
  known_key E dest (given_key keys i) (x25519_base rsk) -> known_key E from sender (x25519_base sk) -> i = 0 \/ others_closed (whole E) rnd m sk keys rsk i ->
  sendable (whole E) q -> avoids envelope_names (dh_other (m_did q)) -> jh_typ (m_jwm q) <> DidCommJws ->
  (len64 (as_raw_json m) <= 2 ^ 26)%N -> (len64 (as_raw_json q) <= 2 ^ 26)%N ->
  exists text' m', replaced (whole E) a cek text (as_raw_json q) = Some text' /\
    receive (whole E) text' (Some rsk) sender signing = Ok m' /\ same_message q m' /\ flags_reset m'.
Proof.
  exists seal_cek. intros E rnd m sk keys text alg a i dest rsk spk gpk from q HO HR HS HF HA HI HFr HSeal HN L HK HSK HB HQ HQA HQT HZ1 HZ2.
  destruct (C69_lawful E HO) as [HE HC]. apply crypto_alg_of_table, crypto_alg_of_ok in HI. destruct HI as [HU ->].
  assert (HB' : others_closed (whole E) rnd m sk keys rsk i) by (destruct HB as [->|HB]; [apply closed_first|exact HB]).
  assert (HT : exists text', replaced (whole E) a seal_cek text (as_raw_json q) = Some text').
  { pose proof HSeal as HT. apply seal_text in HT. destruct HT as [a' [rs [sh [c0 [_ [_ [_ [_ [_ [_ [_ [_ [_ ->]]]]]]]]]]]]]. rewrite replaced_env.
    destruct (encryptor_short (real (curve E)) a (sr_iv rnd) seal_cek (as_raw_json q) (header_b64 (seal_header m)) HU seal_cek_length (ra_iv rnd HR)) as [c EC].
    - change (2 ^ 26)%N with 67108864%N in HZ2. change (2 ^ 36)%N with 68719476736%N. lia.
    - pose proof (header_size m) as HH. unfold len64 in *. change (2 ^ 26)%N with 67108864%N in HZ1. change (2 ^ 36)%N with 68719476736%N. unfold as_raw_json in HZ1. lia.
    - change (encryptor (whole E)) with (encryptor (ciphers (real (curve E)))). rewrite EC. eexists. reflexivity. }
  destruct HT as [text' HT]. exists text'. eexists. split; [exact HT|].
  split; [exact (replaced_received (whole E) rnd m sk keys text a i dest rsk spk gpk from q text' HE HC HR HS HF HA HU HFr HSeal HN L HK HSK HB' HQ HQA HQT HT)|]. split; [|apply re_message_flags].
  eapply same_message_trans; [|apply re_message_same; exact HE]. now apply re_message_same.
Qed.

(** ** Cases *)

Lemma ex_small_whole : sendable (whole toy) ex_small.
Proof.
  destruct ex_small_sendable as [S1 S2 S3 S4 S5 S6 S7]. constructor; [exact S1|exact S2|exact S3|exact S4|exact S5|exact S6|].
  change (stable (rt (whole toy) 0) (JObj [("hello", JStr false "world")])). stable_val.
Qed.
(** Alice has sealed a message for Bob and Carol. Somebody without keys puts another one into it; Bob takes it for Alice's. *)
Example C74_example : forall a, In a [XC20P; A256GCM] -> exists cek text text' m', seal (whole toy) ex_rand (ex_jwe a) alice_key (Some ex_public) = Ok text /\
  replaced (whole toy) a cek text (as_raw_json ex_small) = Some text' /\
  receive (whole toy) text' (Some bob_key) (Some (x25519_base alice_key)) None = Ok m' /\ same_message ex_small m' /\
  dh_from (m_did m') = Some "did:toy:alice" /\ m_body (ex_jwe a) <> m_body m'.
Proof.
  intros a HA. destruct C74_real as [cek HX]. destruct (C69_example a HA) as [text [_ [HT _]]]. exists cek, text.
  destruct (HX toy ex_rand (ex_jwe a) alice_key (Some ex_public) text (wrap_name a) a 0 "did:toy:bob" bob_key (Some (x25519_base alice_key)) None "did:toy:alice" ex_small) as [text' [m' [H1 [H2 [H3 _]]]]].
  - exact (eo_order toy toy_env).
  - exact ex_rand_ok.
  - apply ex_jwe_whole.
  - apply ex_jwe_few.
  - destruct HA as [<-|[<-|[]]]; reflexivity.
  - apply crypto_alg_of_table, crypto_alg_of_ok. split; [|reflexivity]. intros ->. destruct HA as [H|[H|[]]]; discriminate.
  - destruct HA as [<-|[<-|[]]]; reflexivity.
  - exact HT.
  - destruct HA as [<-|[<-|[]]]; reflexivity.
  - apply srepeat_length.
  - now left.
  - now left.
  - now left.
  - exact ex_small_whole.
  - exact ex_small_free.
  - discriminate.
  - destruct HA as [<-|[<-|[]]]; vm_compute; discriminate.
  - vm_compute. discriminate.
  - exists text', m'. split; [exact HT|]. split; [exact H1|]. split; [exact H2|]. split; [exact H3|]. destruct H3 as [_ [HD [_ [HB _]]]]. split.
    + destruct HD as [_ [_ [_ [_ [_ [HD _]]]]]]. now rewrite <- HD.
    + rewrite <- HB. destruct HA as [<-|[<-|[]]]; discriminate.
Qed.
(** The same with an envelope that Alice has signed before; Carol passes the key of the signer. *)
Example C74_example_signed : forall a sa, In a [XC20P; A256GCM] -> exists cek text text' m', seal_signed toy ex_rand (ex_jwe a) alice_key (Some ex_keys) sa "signing" = Ok text /\
  replaced toy a cek text (as_raw_json ex_small) = Some text' /\
  receive toy text' (Some carol_key) (Some alice_key) (Some "signing") = Ok m' /\ same_message ex_small m'.
Proof.
  intros a sa HA. destruct C74_signed as [cek [HL HX]].
  assert (HI : In (wrap_name a, a) wrap_table). { apply crypto_alg_of_table, crypto_alg_of_ok. split; [|reflexivity]. intros ->. destruct HA as [H|[H|[]]]; discriminate. }
  assert (HA' : jh_alg (m_jwm (ex_jwe a)) = Some (wrap_name a)) by (destruct HA as [<-|[<-|[]]]; reflexivity).
  destruct (ex_signed_seals a sa HA) as [text HT]. exists cek, text.
  assert (HR : exists text', replaced toy a cek text (as_raw_json ex_small) = Some text').
  { pose proof HT as HS. apply seal_signed_ok in HS. destruct HS as [s [_ HS]]. eapply (C74_possible toy ex_rand _ alice_key (Some ex_keys) text (wrap_name a) a); [exact toy_total|exact ex_rand_ok| |exact HI|exact HS|exact HL]. exact HA'. }
  destruct HR as [text' HR]. exists text'.
  destruct (HX toy ex_rand (ex_jwe a) alice_key (Some ex_keys) sa "signing" text (wrap_name a) a 1 "did:toy:carol" carol_key (Some alice_key) "signing" "did:toy:alice" ex_small text') as [m' [H1 [H2 _]]].
  - exact toy_env.
  - exact toy_crypto.
  - exact ex_rand_ok.
  - apply ex_jwe_sendable.
  - apply ex_jwe_few.
  - exact HA'.
  - exact HI.
  - reflexivity.
  - exact HT.
  - reflexivity.
  - apply srepeat_length.
  - now left.
  - now left.
  - apply closed_bound. exact toy_crypto_bound.
  - exact ex_small_sendable.
  - exact ex_small_free.
  - discriminate.
  - exact HR.
  - exists m'. auto.
Qed.

Print Assumptions C74_replaced.
Print Assumptions C74_signed.
Print Assumptions C74_possible.
Print Assumptions C74_rest.
Print Assumptions C74_real.
