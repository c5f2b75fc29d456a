(** Encrypted envelopes as a whole: encrypt and decrypt, seal and receive. *)

From Coq Require Import Ascii String Arith NArith List Bool Permutation Sorted Lia.
From Verif Require Import Bytes BytesFacts Base64 Base64Facts Utf8 Utf8Facts Json JsonFacts Value ValueFacts Types Serde SerdeFacts
  Message Attach Regex ChaCha Sha256 Envelope Spec SpecFacts DecodeFacts PlainFacts CodecFacts SetterFacts SpecText RegexFacts
  CryptoLaws SpecSign HeaderFacts SpecSeal SealFacts.
Import ListNotations.
Local Open Scope string_scope.

(** ** Texts of encrypted envelopes *)

Definition good_rc (r : recipient) : Prop :=
  Forall rust_string (recipient_strings r) /\ rust_jwk (rc_header r) /\ jwk_plain (rc_header r).
Definition good_jwe (e : jwe) : Prop :=
  opt_all good_header (je_protected e) /\ opt_all good_header (je_unprotected e) /\
  opt_all good_rc (je_recipient e) /\ opt_all (Forall good_rc) (je_recipients e) /\
  rust_string (je_ciphertext e) /\ rust_string (je_iv e) /\ opt_all rust_string (je_tag e).
Lemma good_rc_ok : forall r, good_rc r -> rc_ok r.
Proof. intros r [_ [H1 H2]]. now apply jwk_ok_intro. Qed.
Lemma good_jwe_ok : forall e, good_jwe e -> jwe_ok e.
Proof.
  intros e [H1 [H2 [H3 [H4 _]]]]. split; [|split; [|split; [|split]]].
  - intros h Eh. rewrite Eh in H1. now apply good_header_ok.
  - intros h Eh. rewrite Eh in H1. now apply good_header_ok.
  - intros h Eh. rewrite Eh in H2. now apply good_header_ok.
  - intros r Er. rewrite Er in H3. now apply good_rc_ok.
  - intros l El. rewrite El in H4. eapply Forall_impl; [|exact H4]. intros r. apply good_rc_ok.
Qed.
Lemma utf8_ser_jwe : forall e, good_jwe e -> jutf8 (ser_jwe e).
Proof.
  intros e [H1 [H2 [H3 [H4 [H5 [H6 H7]]]]]]. unfold ser_jwe. apply jutf8_obj. repeat (apply ents_utf8_app; split).
  - apply ents_utf8_sopt; [reflexivity|]. intros h _. apply jutf8_jstr. apply b64_utf8.
  - apply ents_utf8_sopt; [reflexivity|]. intros h Eh. rewrite Eh in H2. now apply good_header_ok.
  - destruct (je_recipient e); [apply utf8_recipient_entries; apply H3|constructor].
  - apply ents_utf8_sopt; [reflexivity|]. intros l El. rewrite El in H4. apply jutf8_arr. apply Forall_forall. intros j Hj.
    apply in_map_iff in Hj. destruct Hj as [r [<- Hr]]. apply utf8_ser_recipient. cbn in H4. rewrite Forall_forall in H4. now apply H4.
  - change [("ciphertext", jstr (je_ciphertext e)); ("iv", jstr (je_iv e))] with ([("ciphertext", jstr (je_ciphertext e))] ++ [("iv", jstr (je_iv e))])%list.
    apply ents_utf8_app. split; (apply ents_utf8_one; [reflexivity|]; now apply jutf8_jstr).
  - apply ents_utf8_sopt; [reflexivity|]. intros t Et. rewrite Et in H7. now apply jutf8_jstr.
Qed.
Lemma jwe_round : forall R e, good_jwe e -> jwe_from_slice R (jwe_json e) = Some (re_jwe R e) /\ jwe_from_str R (jwe_json e) = Some (re_jwe R e).
Proof.
  intros R e H. unfold jwe_from_slice, jwe_from_str, jwe_json. rewrite parse_slice_print; [|apply wf_ser_jwe|now apply utf8_ser_jwe].
  rewrite parse_print by apply wf_ser_jwe. cbn [obind]. split; apply de_jwe_ser; now apply good_jwe_ok.
Qed.
Lemma jwe_json_utf8 : forall e, good_jwe e -> rust_string (jwe_json e).
Proof. intros e H. apply print_utf8; [apply wf_ser_jwe|now apply utf8_ser_jwe]. Qed.
Lemma classify_jwe : forall R e, get_message_type R (jwe_json e) = Ok DidCommJwe.
Proof.
  intros R e. unfold get_message_type, jwe_json. rewrite parse_print by apply wf_ser_jwe. cbn [oerr rbind]. unfold ser_jwe, de_unknown. cbn [view obind].
  destruct (je_protected e), (je_unprotected e), (je_recipient e), (je_recipients e), (je_tag e); reflexivity.
Qed.

(** ** encrypt and decrypt *)

(** Where the recipient entries are: at top level or in a list. *)
Definition placed (e : option recipient * option (list recipient)) (rs : list recipient) : Prop :=
  e = (None, Some rs) \/ exists r, rs = [r] /\ e = (Some r, None).
Definition sealed_env (h : jwm_header) (sh : option recipient * option (list recipient)) (ct tag iv : string) : jwe :=
  {| je_protected := Some h; je_unprotected := None; je_recipient := fst sh; je_recipients := snd sh;
     je_ciphertext := b64_encode ct; je_iv := b64_encode iv; je_tag := Some (b64_encode tag) |}.
Lemma sealed_env_good : forall h sh rs ct tag iv, good_header h -> placed sh rs -> Forall good_rc rs -> good_jwe (sealed_env h sh ct tag iv).
Proof.
  intros h sh rs ct tag iv HH HP HR. unfold good_jwe. cbn [sealed_env je_protected je_unprotected je_recipient je_recipients je_ciphertext je_iv je_tag opt_all].
  split; [exact HH|]. split; [exact I|]. destruct HP as [->|[r [-> ->]]]; cbn [fst snd opt_all].
  - split; [exact I|]. split; [exact HR|]. split; [apply b64_utf8|]. split; apply b64_utf8.
  - split; [now inversion HR|]. split; [exact I|]. split; [apply b64_utf8|]. split; apply b64_utf8.
Qed.
Lemma re_sealed_env : forall R h sh ct tag iv, re_jwe R (sealed_env h sh ct tag iv) =
  sealed_env (re_jwm R h) (option_map (re_recipient R) (fst sh), option_map (map (re_recipient R)) (snd sh)) ct tag iv.
Proof. reflexivity. Qed.
Lemma placed_recipients : forall sh rs h ct tag iv R, placed sh rs ->
  jwe_recipients (re_jwe R (sealed_env h sh ct tag iv)) = Some (map (re_recipient R) rs).
Proof. intros sh rs h ct tag iv R [->|[r [-> ->]]]; reflexivity. Qed.

Lemma encrypt_ok : forall iv m f cek text, encrypt iv m f cek = Ok text ->
  exists h c sh, encrypt_header m = Ok h /\ f iv cek (message_json m) (header_b64 h) = Ok c /\ 16 <= String.length c /\
    (if m_flat_jwe m then exists r, m_recipients m = Some [r] /\ sh = (Some r, None) else sh = (None, m_recipients m)) /\
    text = jwe_json (sealed_env h sh (take (String.length c - 16) c) (drop (String.length c - 16) c) iv).
Proof.
  intros iv m f cek text H. unfold encrypt in H. destruct (encrypt_header m) as [h| |] eqn:EH; try discriminate. cbn [rbind] in H.
  rewrite b64_decode_encode in H. cbn [oerr rbind] in H. destruct (f _ _ _ _) as [c| |] eqn:EF; try discriminate. cbn [rbind] in H.
  unfold split_tag in H. destruct (Nat.ltb_spec (String.length c) 16); [discriminate|]. cbn [rbind fst snd] in H.
  destruct (m_flat_jwe m).
  - destruct (m_recipients m) as [[|r [|r' l]]|]; try discriminate. cbn [oerr rbind] in H. apply ok_inj in H. subst text.
    exists h, c, (Some r, None). split; [reflexivity|]. split; [exact EF|]. split; [exact H0|]. split; [|reflexivity]. now exists r.
  - cbn [rbind] in H. apply ok_inj in H. subst text. exists h, c, (None, m_recipients m). auto.
Qed.
Lemma encrypt_total : forall iv m f cek h c sh, encrypt_header m = Ok h -> f iv cek (message_json m) (header_b64 h) = Ok c -> 16 <= String.length c ->
    (if m_flat_jwe m then exists r, m_recipients m = Some [r] /\ sh = (Some r, None) else sh = (None, m_recipients m)) ->
    encrypt iv m f cek = Ok (jwe_json (sealed_env h sh (take (String.length c - 16) c) (drop (String.length c - 16) c) iv)).
Proof.
  intros iv m f cek h c sh HH HF HL HS. unfold encrypt. rewrite HH. cbn [rbind]. rewrite b64_decode_encode. cbn [oerr rbind]. rewrite HF. cbn [rbind].
  rewrite split_tag_long by exact HL. cbn [rbind fst snd]. destruct (m_flat_jwe m).
  - destruct HS as [r [-> ->]]. reflexivity.
  - subst sh. reflexivity.
Qed.
Lemma decrypt_env : forall R1 R2 h sh ct tag iv f cek, good_jwe (sealed_env h sh ct tag iv) ->
  decrypt R1 R2 (jwe_json (sealed_env h sh ct tag iv)) f cek =
  match f iv cek (ct ++ tag) (header_b64 (re_jwm R1 h)) with
  | Ok raw => oerr (message_from_slice R2 raw) ESerde | Err _ => Err EPlugCryptoFailure | Panic => Panic end.
Proof.
  intros R1 R2 h sh ct tag iv f cek HG. unfold decrypt. destruct (jwe_round R1 _ HG) as [-> _]. rewrite re_sealed_env. cbn [oerr rbind].
  cbn [sealed_env je_protected je_tag]. cbn [oerr rbind]. unfold jwe_payload, jwe_iv. cbn [sealed_env je_ciphertext je_iv].
  rewrite !b64_decode_encode. reflexivity.
Qed.
(** The ciphers invert each other and append a tag. *)
Lemma cipher_round : forall E a iv cek p aad c, crypto_ok E -> usable a -> encryptor E a iv cek p aad = Ok c ->
  decrypter E a iv cek c aad = Ok p /\ 16 <= String.length c /\ String.length cek = 32.
Proof.
  intros E a iv cek p aad c HC HU H. destruct HC as [_ [X1 X2] [G1 G2]]. destruct a; [| |congruence]; unfold encryptor in H; unfold decrypter; rbinv H; apply oerr_ok in H.
  - cbn [rbind]. apply exact_len_inv in E1, E2. destruct E1 as [_ ->]. destruct E2 as [E2 ->]. rewrite (X1 _ _ _ _ _ H).
    split; [reflexivity|]. split; [eapply X2; exact H|exact E2].
  - cbn [rbind]. apply exact_len_inv in E1. destruct E1 as [E1 ->]. rewrite (G1 _ _ _ _ _ H). split; [reflexivity|]. split; [eapply G2; exact H|exact E1].
Qed.

(** ** receive_jwe of a well-formed envelope *)

Lemma find_cek_at : forall E e sk pk cek l i r acc, nth_error l i = Some r -> decrypt_cek E e sk r pk = Ok cek ->
  (forall j x, j < i -> nth_error l j = Some x -> decrypt_cek E e sk x pk = Ok cek \/ exists err, decrypt_cek E e sk x pk = Err err) ->
  find_cek E e sk pk acc l = Ok cek.
Proof.
  intros E e sk pk cek. induction l as [|x l IH]; intros i r acc HN HD HB; [now destruct i|]. cbn [find_cek].
  destruct i as [|i]; cbn in HN.
  - injection HN as ->. now rewrite HD.
  - destruct (HB 0 x) as [->|[err ->]]; [lia|reflexivity|reflexivity|]. apply (IH i r); auto. intros j y HJ HY. apply (HB (S j) y); [lia|exact HY].
Qed.
Lemma jwe_get_env : forall h sh ct tag iv (f : jwm_header -> option string) v, f h = Some v -> jwe_get (sealed_env h sh ct tag iv) f = Some v.
Proof. intros h sh ct tag iv f v H. unfold jwe_get, sealed_env. cbn [je_protected je_unprotected fallback]. unfold fallback. now rewrite H. Qed.
Lemma jwe_get_env_none : forall h sh ct tag iv (f : jwm_header -> option string), f h = None -> jwe_get (sealed_env h sh ct tag iv) f = None.
Proof. intros h sh ct tag iv f H. unfold jwe_get, sealed_env. cbn [je_protected je_unprotected fallback]. unfold fallback. now rewrite H. Qed.

Lemma sender_key : forall E e spk skid key, jwe_get e jh_skid = Some skid -> known_key E skid spk key ->
  match spk with
  | Some k => Ok k
  | None => let? s := oerr (jwe_get e jh_skid) (EGeneric "skid missing") in let? doc := oerr (resolve E s) EDidResolveFailed in oerr (doc_key doc "X25519") EBadDid
  end = Ok key.
Proof.
  intros E e spk skid key HS [->|[-> [doc [HR HD]]]]; [reflexivity|]. rewrite HS. cbn [oerr rbind]. rewrite HR. cbn [oerr rbind]. now rewrite HD.
Qed.
Lemma receive_jwe_env : forall E a h sh rs c iv cek rsk spk skid key sm, env_ok E -> crypto_ok E -> usable a -> good_header h -> few_custom h ->
  jh_alg h = Some (wrap_name a) -> jh_skid h = Some skid -> placed sh rs -> Forall good_rc rs -> sendable E sm ->
  encryptor E a iv cek (message_json sm) (header_b64 h) = Ok c ->
  32 <= String.length rsk -> known_key E skid spk key -> 32 <= String.length key ->
  (forall e, jwe_get e jh_alg = Some (wrap_name a) -> jwe_get e jh_skid = Some skid ->
     find_cek E e rsk spk (Err (EGeneric "no recipients found in JWE")) (map (re_recipient (rt E 1)) rs) = Ok cek) ->
  receive_jwe E (jwe_json (sealed_env h sh (take (String.length c - 16) c) (drop (String.length c - 16) c) iv)) rsk spk
  = Ok (message_json (re_message (rt E 3) sm)).
Proof.
  intros E a h sh rs c iv cek rsk spk skid key sm HE HC HU HH HF HA HSk HP HR HS HENC L1 HK L2 HFind.
  destruct (cipher_round E a iv cek _ _ c HC HU HENC) as [HD [HL _]].
  pose proof (sealed_env_good h sh rs (take (String.length c - 16) c) (drop (String.length c - 16) c) iv HH HP HR) as HG.
  unfold receive_jwe. destruct (jwe_round (rt E 1) _ HG) as [_ ->]. cbn [oerr rbind].
  assert (HA1 : jwe_get (re_jwe (rt E 1) (sealed_env h sh (take (String.length c - 16) c) (drop (String.length c - 16) c) iv)) jh_alg = Some (wrap_name a))
    by (rewrite re_sealed_env; apply jwe_get_env; exact HA).
  assert (HS1 : jwe_get (re_jwe (rt E 1) (sealed_env h sh (take (String.length c - 16) c) (drop (String.length c - 16) c) iv)) jh_skid = Some skid)
    by (rewrite re_sealed_env; apply jwe_get_env; exact HSk).
  rewrite HA1. cbn [oerr rbind]. rewrite (sender_key E _ spk skid key HS1 HK). cbn [rbind]. rewrite !arr32_ok by assumption. cbn [rbind].
  assert (HCA : crypto_alg_of (wrap_name a) = Ok a) by (apply crypto_alg_of_ok; now split). rewrite HCA. cbn [rbind].
  rewrite (placed_recipients sh rs) by exact HP. rewrite (HFind _ HA1 HS1). cbn [cek_error rbind].
  rewrite decrypt_env by exact HG. rewrite take_drop. rewrite re_jwm_few; [|now apply env_drt|exact HF]. rewrite HD.
  rewrite (sendable_from_slice E 3 sm HS). reflexivity.
Qed.
Lemma receive_sealed_text : forall E text rsk spk gpk sm k, env_ok E -> sendable E sm -> avoids envelope_names (dh_other (m_did sm)) ->
  jh_typ (m_jwm sm) <> DidCommJws -> get_message_type (rt E 0) text = Ok DidCommJwe ->
  receive_jwe E text rsk spk = Ok (message_json (re_message (rt E k) sm)) ->
  receive E text (Some rsk) spk gpk = Ok (re_message (rt E 9) (re_message (rt E k) sm)).
Proof.
  intros E text rsk spk gpk sm k HE HS HA HT HC HR. unfold receive. rewrite HC. cbn [rbind is_jwe_type oerr]. rewrite HR. cbn [rbind].
  pose proof (re_message_same E k sm HE) as HM. pose proof (same_sendable E _ _ HM HS) as HS'.
  assert (HA' : avoids envelope_names (dh_other (m_did (re_message (rt E k) sm)))).
  { destruct HM as [_ [HM _]]. eapply avoids_perm; [|exact HA]. apply HM. }
  rewrite (classify_message E 4 _ HS' HA'). cbn [rbind].
  assert (HT' : jh_typ (m_jwm (re_message (rt E k) sm)) = jh_typ (m_jwm sm)) by reflexivity. rewrite HT'.
  destruct (jh_typ (m_jwm sm)) eqn:ET; try congruence; cbn [is_jws_type rbind]; rewrite (sendable_from_str E 9 _ HS'); reflexivity.
Qed.

(** ** seal *)

Lemma seal_loop_ok : forall E rnd m sk ds ps i rs, seal_loop E rnd m sk i ds ps = Ok rs -> List.length ps = List.length ds ->
  List.length rs = List.length ds /\
  forall k dest, nth_error ds k = Some dest -> exists r, nth_error rs k = Some r /\ encrypt_cek E (rnd (i + k)) m sk dest seal_cek (nth k ps None) = Ok r.
Proof.
  intros E rnd m sk. induction ds as [|d ds IH]; intros [|p ps] i rs H HL; try discriminate; cbn [seal_loop] in H.
  - apply ok_inj in H. subst rs. split; [reflexivity|]. intros [|k] dest; discriminate.
  - rbinv H. apply ok_inj in H. subst rs. injection HL as HL. destruct (IH ps (S i) v0 E1 HL) as [H1 H2]. split; [cbn [List.length]; now rewrite H1|].
    intros [|k] dest HN; cbn [nth nth_error] in HN |- *.
    + injection HN as <-. exists v. rewrite Nat.add_0_r. now split.
    + destruct (H2 k dest HN) as [r [HR HE]]. exists r. split; [exact HR|]. replace (i + S k) with (S i + k) by lia. exact HE.
Qed.
Lemma seal_loop_total : forall E rnd m sk ds ps i, List.length ps = List.length ds ->
  (forall k dest, nth_error ds k = Some dest -> exists r, encrypt_cek E (rnd (i + k)) m sk dest seal_cek (nth k ps None) = Ok r) ->
  exists rs, seal_loop E rnd m sk i ds ps = Ok rs.
Proof.
  intros E rnd m sk. induction ds as [|d ds IH]; intros [|p ps] i HL H; try discriminate; cbn [seal_loop].
  - now exists [].
  - destruct (H 0 d eq_refl) as [r HR]. rewrite Nat.add_0_r in HR. cbn [nth] in HR. rewrite HR. cbn [rbind]. injection HL as HL.
    destruct (IH ps (S i) HL) as [rs HRS].
    + intros k dest HN. destruct (H (S k) dest HN) as [r' HR']. exists r'. replace (S i + k) with (i + S k) by lia. exact HR'.
    + rewrite HRS. cbn [rbind]. now exists (r :: rs).
Qed.
Lemma nth_repeat_none : forall n k, nth k (repeat (@None string) n) None = None.
Proof. induction n as [|n IH]; intros [|k]; cbn; auto. Qed.
Lemma seal_ok : forall E rnd m sk keys text, seal E rnd m sk keys = Ok text ->
  String.length sk = 32 /\ dh_to (m_did m) <> [] /\ (m_flat_jwe m = true -> List.length (dh_to (m_did m)) = 1) /\
  (forall l, keys = Some l -> List.length l = List.length (dh_to (m_did m))) /\
  exists rs a, List.length rs = List.length (dh_to (m_did m)) /\
    (forall k dest, nth_error (dh_to (m_did m)) k = Some dest ->
       exists r, nth_error rs k = Some r /\ encrypt_cek E (sr_rec rnd k) m sk dest seal_cek (given_key keys k) = Ok r) /\
    usable a /\ jh_alg (m_jwm m) = Some (wrap_name a) /\
    encrypt (sr_iv rnd) (with_recipients m (Some rs)) (encryptor E a) seal_cek = Ok text.
Proof.
  intros E rnd m sk keys text H. unfold seal in H. destruct (Nat.eqb_spec (String.length sk) 32) as [H1|]; [|discriminate]. cbn [negb] in H.
  set (to := dh_to (m_did m)) in *.
  assert (HK : exists pks, match keys with Some l => if negb (List.length l =? List.length to)%nat then Err (EGeneric "`to` and `recipient_public_keys` must have same length") else Ok l
                 | None => Ok (repeat None (List.length to)) end = Ok pks /\ List.length pks = List.length to /\ (forall k, nth k pks None = given_key keys k) /\
                 (forall l, keys = Some l -> List.length l = List.length to)).
  { destruct keys as [l|].
    - destruct (Nat.eqb_spec (List.length l) (List.length to)) as [HL|]; [|discriminate]. exists l. split; [reflexivity|]. split; [exact HL|]. split; [reflexivity|].
      intros l' Hl. now injection Hl as <-.
    - exists (repeat None (List.length to)). split; [reflexivity|]. split; [apply repeat_length|]. split; [intros k; apply nth_repeat_none|]. discriminate. }
  destruct HK as [pks [HP [HPL [HPN HKL]]]]. rewrite HP in H. cbn [rbind] in H.
  destruct (Nat.eqb_spec (List.length to) 0) as [|H2]; [discriminate|].
  destruct (m_flat_jwe m && (1 <? List.length to)%nat)%bool eqn:EF; [discriminate|].
  destruct (seal_loop _ _ _ _ _ _ _) as [rs| |] eqn:EL; try discriminate. cbn [rbind] in H.
  destruct (crypter_of (m_jwm (with_recipients m (Some rs)))) as [a| |] eqn:EA; try discriminate. cbn [rbind] in H.
  apply seal_loop_ok in EL; [|exact HPL]. destruct EL as [EL1 EL2].
  split; [exact H1|]. split; [intros G; rewrite G in H2; now apply H2|]. split.
  { intros G. rewrite G in EF. cbn [andb] in EF. apply Nat.ltb_ge in EF. lia. }
  split; [exact HKL|]. exists rs, a. split; [exact EL1|]. split.
  { intros k dest HN. destruct (EL2 k dest HN) as [r [HR HE]]. exists r. split; [exact HR|]. rewrite HPN in HE. exact HE. }
  unfold crypter_of in EA. change (m_jwm (with_recipients m (Some rs))) with (m_jwm m) in EA. destruct (jh_alg (m_jwm m)) as [s|]; [|discriminate].
  apply crypto_alg_of_ok in EA. destruct EA as [EA ->]. auto.
Qed.

(** The entries made by [seal]. *)
Lemma nth_error_ex : forall A (l : list A) k, k < List.length l -> exists x, nth_error l k = Some x.
Proof. intros A l k H. destruct (nth_error l k) as [x|] eqn:EX; [now exists x|]. apply nth_error_None in EX. lia. Qed.
Lemma encrypt_cek_good : forall E rr m sk dest cek pk r, encrypt_cek E rr m sk dest cek pk = Ok r -> good_rc r.
Proof.
  intros E rr m sk dest cek pk r H. apply encrypt_cek_ok in H. destruct H as [a [key [c [_ [_ [_ [_ [_ [_ [_ [_ [_ ->]]]]]]]]]]]].
  apply cek_recipient_good.
Qed.
Lemma seal_entries_good : forall E (rnd : nat -> rec_rand) m sk cek (given : nat -> option string) to rs, List.length rs = List.length to ->
  (forall k dest, nth_error to k = Some dest -> exists r, nth_error rs k = Some r /\ encrypt_cek E (rnd k) m sk dest cek (given k) = Ok r) ->
  Forall good_rc rs.
Proof.
  intros E rnd m sk cek given to rs HL H. apply Forall_forall. intros r HI. apply In_nth_error in HI. destruct HI as [k HK].
  assert (HLt : k < List.length to) by (rewrite <- HL; apply nth_error_Some; congruence).
  destruct (nth_error_ex _ to k HLt) as [dest HD]. destruct (H k dest HD) as [r' [HR HE]]. rewrite HK in HR. injection HR as <-.
  eapply encrypt_cek_good. exact HE.
Qed.
Lemma with_recipients_sendable : forall E m rs, sendable E m -> Forall good_rc rs -> sendable E (with_recipients m (Some rs)).
Proof.
  intros E m rs [[R1 R2 R3 R4 R5 R6 R7 R8 R9 R10] S2 S3 S4 S5 S6 S7] HR. constructor; try assumption.
  - constructor; try assumption.
    + unfold message_strings in *. cbn [with_recipients m_jwm m_did m_recipients m_body m_attachments] in *. fa; try assumption.
      cbn [oflat]. apply Forall_flat_map. eapply Forall_impl; [|exact HR]. now intros r' [Hg _].
    + cbn. eapply Forall_impl; [|exact HR]. now intros r [_ [H _]].
  - cbn. eapply Forall_impl; [|exact HR]. now intros r [_ [_ H]].
Qed.
Lemma sendable_from_rust : forall E m from, sendable E m -> dh_from (m_did m) = Some from -> rust_string from.
Proof.
  intros E m from HS HF. pose proof (rm_strings m (sd_rust E m HS)) as H. unfold message_strings, did_strings in H. fa. rewrite HF in *.
  match goal with G : Forall rust_string (ostr (Some from)) |- _ => inversion G; assumption end.
Qed.
(** The protected header of a sealed envelope. *)
Definition seal_header (m : message) : jwm_header :=
  jh_with_skid (match jh_typ (m_jwm m) with DidCommForward => m_jwm m | _ => jh_with_typ (m_jwm m) DidCommJwe end) (dh_from (m_did m)).
Lemma seal_header_eq : forall m rs, encrypt_header (with_recipients m (Some rs)) = Ok (seal_header m).
Proof. reflexivity. Qed.
Lemma seal_header_alg : forall m, jh_alg (seal_header m) = jh_alg (m_jwm m).
Proof. intros m. unfold seal_header. destruct (jh_typ (m_jwm m)); reflexivity. Qed.
Lemma seal_header_skid : forall m, jh_skid (seal_header m) = dh_from (m_did m).
Proof. reflexivity. Qed.
Lemma seal_header_few : forall m, few_custom (m_jwm m) -> few_custom (seal_header m).
Proof. intros m H. unfold seal_header. destruct (jh_typ (m_jwm m)); exact H. Qed.
Lemma seal_header_good : forall E m, sendable E m -> good_header (seal_header m).
Proof.
  intros E m HS. unfold seal_header. apply good_skid.
  - destruct (dh_from (m_did m)) as [f|] eqn:EF; [|exact I]. eapply sendable_from_rust; eassumption.
  - pose proof (sendable_header E m HS) as HH. destruct (jh_typ (m_jwm m)); try (now apply good_typ); exact HH.
Qed.

(** The shape of what [seal] returns. *)
Lemma seal_text : forall E rnd m sk keys text, seal E rnd m sk keys = Ok text -> exists a rs sh c,
  usable a /\ jh_alg (m_jwm m) = Some (wrap_name a) /\ List.length rs = List.length (dh_to (m_did m)) /\
  (forall k dest, nth_error (dh_to (m_did m)) k = Some dest ->
       exists r, nth_error rs k = Some r /\ encrypt_cek E (sr_rec rnd k) m sk dest seal_cek (given_key keys k) = Ok r) /\
  placed sh rs /\ (m_flat_jwe m = true <-> fst sh <> None) /\ Forall good_rc rs /\
  encryptor E a (sr_iv rnd) seal_cek (message_json (with_recipients m (Some rs))) (header_b64 (seal_header m)) = Ok c /\
  16 <= String.length c /\
  text = jwe_json (sealed_env (seal_header m) sh (take (String.length c - 16) c) (drop (String.length c - 16) c) (sr_iv rnd)).
Proof.
  intros E rnd m sk keys text H. apply seal_ok in H. destruct H as [H1 [H2 [H3 [H4 [rs [a [H5 [H6 [H7 [H8 H9]]]]]]]]]].
  apply encrypt_ok in H9. destruct H9 as [h [c [sh [E1 [E2 [E3 [E4 ->]]]]]]]. rewrite seal_header_eq in E1. apply ok_inj in E1. subst h.
  exists a, rs, sh, c. split; [exact H7|]. split; [exact H8|]. split; [exact H5|]. split; [exact H6|]. cbn [with_recipients m_flat_jwe m_recipients] in E4. split; [|split].
  - destruct (m_flat_jwe m); [|left; exact E4]. destruct E4 as [r [E4 ->]]. injection E4 as ->. right. now exists r.
  - destruct (m_flat_jwe m).
    + destruct E4 as [r [_ ->]]. split; [discriminate|reflexivity].
    + subst sh. split; [discriminate|]. intros G. now elim G.
  - split; [eapply seal_entries_good; eassumption|]. auto.
Qed.

(** ** seal and receive *)

Lemma find_cek_seal : forall E R e m (rnd : seal_rand) sk rsk spk keys rs i dest skid acc, crypto_ok E -> drt_ok R ->
  String.length sk = 32 -> String.length rsk = 32 -> (forall k, String.length (rr_esk (sr_rec rnd k)) = 32) -> List.length rs = List.length (dh_to (m_did m)) ->
  (forall k d, nth_error (dh_to (m_did m)) k = Some d -> exists r, nth_error rs k = Some r /\ encrypt_cek E (sr_rec rnd k) m sk d seal_cek (given_key keys k) = Ok r) ->
  nth_error (dh_to (m_did m)) i = Some dest -> known_key E dest (given_key keys i) (x_pub E rsk) -> others_closed E rnd m sk keys rsk i ->
  jwe_get e jh_alg = jh_alg (m_jwm m) -> jwe_get e jh_skid = Some skid -> known_key E skid spk (x_pub E sk) ->
  find_cek E e rsk spk acc (map (re_recipient R) rs) = Ok seal_cek.
Proof.
  intros E R e m rnd sk rsk spk keys rs i dest skid acc HC HR L1 L2 L3 HL HN HD HK HB HA HS HSK.
  destruct (HN i dest HD) as [r [HI HE]].
  apply (find_cek_at E e rsk spk seal_cek _ i (re_recipient R r)).
  - rewrite nth_error_map, HI. reflexivity.
  - apply (cek_round E R e m (sr_rec rnd i) sk rsk dest seal_cek (given_key keys i) spk r skid); auto.
  - intros j x HJ HX. rewrite nth_error_map in HX. destruct (nth_error rs j) as [rj|] eqn:EJ; [|discriminate]. injection HX as <-.
    assert (HLt : j < List.length (dh_to (m_did m))) by (rewrite <- HL; apply nth_error_Some; congruence).
    destruct (nth_error_ex _ (dh_to (m_did m)) j HLt) as [dj HDj]. destruct (HN j dj HDj) as [rj' [HRj HEj]]. rewrite EJ in HRj. injection HRj as <-.
    destruct (cek_other E R e m (sr_rec rnd j) sk rsk dj seal_cek (given_key keys j) spk rj skid) as [G|G]; auto.
    + intros key a c p G1 G2 G3 G4. exact (HB j dj key a c p HJ HDj G1 G2 G3 G4).
    + right. eexists. exact G.
Qed.
Lemma seal_receive_jwe : forall E rnd m sk keys text i dest rsk spk from, env_ok E -> crypto_ok E -> rand_ok rnd -> sendable E m -> few_custom (m_jwm m) ->
  dh_from (m_did m) = Some from ->
  seal E rnd m sk keys = Ok text -> nth_error (dh_to (m_did m)) i = Some dest -> String.length rsk = 32 ->
  known_key E dest (given_key keys i) (x_pub E rsk) -> known_key E from spk (x_pub E sk) -> others_closed E rnd m sk keys rsk i ->
  exists rs, Forall good_rc rs /\ List.length rs = List.length (dh_to (m_did m)) /\
    receive_jwe E text rsk spk = Ok (message_json (re_message (rt E 3) (with_recipients m (Some rs)))) /\
    get_message_type (rt E 0) text = Ok DidCommJwe.
Proof.
  intros E rnd m sk keys text i dest rsk spk from HE HC [A1 A2 A3] HS HF HFr HSeal HN L HK HSK HB.
  destruct (seal_ok _ _ _ _ _ _ HSeal) as [LS _].
  apply seal_text in HSeal. destruct HSeal as [a [rs [sh [c [H1 [H2 [H3 [H4 [H5 [_ [H6 [H7 [H8 ->]]]]]]]]]]]]].
  exists rs. split; [exact H6|]. split; [exact H3|].
  assert (HSM : sendable E (with_recipients m (Some rs))) by now apply with_recipients_sendable.
  assert (HPL : String.length (x_pub E sk) = 32) by (apply HC; exact LS).
  split; [|apply classify_jwe].
  apply (receive_jwe_env E a (seal_header m) sh rs c (sr_iv rnd) seal_cek rsk spk from (x_pub E sk)); auto; try lia.
  - eapply seal_header_good; eassumption.
  - now apply seal_header_few.
  - now rewrite seal_header_alg.
  - intros e HA1 HS1. apply (find_cek_seal E (rt E 1) e m rnd sk rsk spk keys rs i dest from); auto.
    + now apply env_drt.
    + congruence.
Qed.
Lemma seal_receive : forall E rnd m sk keys text i dest rsk spk gpk from, env_ok E -> crypto_ok E -> rand_ok rnd -> sendable E m -> few_custom (m_jwm m) ->
  avoids envelope_names (dh_other (m_did m)) -> jh_typ (m_jwm m) <> DidCommJws -> dh_from (m_did m) = Some from ->
  seal E rnd m sk keys = Ok text -> nth_error (dh_to (m_did m)) i = Some dest -> String.length rsk = 32 ->
  known_key E dest (given_key keys i) (x_pub E rsk) -> known_key E from spk (x_pub E sk) -> others_closed E rnd m sk keys rsk i ->
  exists rs, Forall good_rc rs /\ List.length rs = List.length (dh_to (m_did m)) /\
    receive_jwe E text rsk spk = Ok (message_json (re_message (rt E 3) (with_recipients m (Some rs)))) /\
    get_message_type (rt E 0) text = Ok DidCommJwe /\
    receive E text (Some rsk) spk gpk = Ok (re_message (rt E 9) (re_message (rt E 3) (with_recipients m (Some rs)))).
Proof.
  intros E rnd m sk keys text i dest rsk spk gpk from HE HC HR HS HF HA HT HFr HSeal HN L HK HSK HB.
  destruct (seal_receive_jwe E rnd m sk keys text i dest rsk spk from HE HC HR HS HF HFr HSeal HN L HK HSK HB) as [rs [H1 [H2 [H3 H4]]]].
  exists rs. split; [exact H1|]. split; [exact H2|]. split; [exact H3|]. split; [exact H4|].
  apply receive_sealed_text; auto. now apply with_recipients_sendable.
Qed.
