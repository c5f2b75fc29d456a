(** Lemmas about key derivation, recipient selection, panics of [receive] and the external crypto path. *)

From Coq Require Import Ascii String Arith NArith List Bool Permutation Lia.
From Verif Require Import Bytes BytesFacts Base64 Base64Facts Utf8 Utf8Facts Json JsonFacts Value ValueFacts Types Serde SerdeFacts Sha256 Message Attach Envelope
  Spec SpecFacts DecodeFacts PlainFacts CryptoLaws SetterFacts SpecText SpecSign HeaderFacts SignFacts SignFacts2 SpecSeal SealFacts SealFacts2 SealFacts3 SpecKey.
Import ListNotations.
Local Open Scope string_scope.

(** ** Key derivation *)

Lemma be4_u32 : forall n, be4 n = u32 n.
Proof. reflexivity. Qed.
Lemma len_input_short : forall s, short s -> len_input s = Ok (lp s).
Proof. intros s H. unfold len_input. destruct (N.ltb_spec (N.of_nat (String.length s)) 4294967296); [reflexivity|]. unfold short in H. lia. Qed.
Lemma len_input_long : forall s, ~ short s -> exists x, len_input s = Err x.
Proof. intros s H. unfold len_input. destruct (N.ltb_spec (N.of_nat (String.length s)) 4294967296); [contradiction|]. now eexists. Qed.
Lemma opt_input_lp : forall o, short (info o) -> opt_input o = Ok (lp (info o)).
Proof. intros [s|] H; [now apply len_input_short|reflexivity]. Qed.
Lemma kdf_input_spec : forall z alg u v x, kdf_input z alg u v = Ok x <-> short alg /\ short (info u) /\ short (info v) /\ x = kdf_text z alg (info u) (info v).
Proof.
  assert (HD : forall s, short s \/ ~ short s) by (intros s; unfold short; lia).
  intros z alg u v x. unfold kdf_input. split.
  - destruct (HD alg) as [H1|H1]; [|destruct (len_input_long _ H1) as [y ->]; discriminate]. rewrite (len_input_short _ H1). cbn [rbind].
    destruct (HD (info u)) as [H2|H2].
    2:{ destruct u as [u|]; [|exfalso; apply H2; reflexivity]. destruct (len_input_long _ H2) as [y HY]. cbn [opt_input info] in *. rewrite HY. discriminate. }
    rewrite (opt_input_lp _ H2). cbn [rbind]. destruct (HD (info v)) as [H3|H3].
    2:{ destruct v as [v|]; [|exfalso; apply H3; reflexivity]. destruct (len_input_long _ H3) as [y HY]. cbn [opt_input info] in *. rewrite HY. discriminate. }
    rewrite (opt_input_lp _ H3). cbn [rbind]. intros H. apply ok_inj in H. subst x. auto.
  - intros [H1 [H2 [H3 ->]]]. rewrite (len_input_short _ H1), (opt_input_lp _ H2), (opt_input_lp _ H3). reflexivity.
Qed.
Lemma n_step : forall a b, (a / 256 = b / 256)%N -> (a mod 256 = b mod 256)%N -> a = b.
Proof. intros a b H1 H2. rewrite (N.div_mod a 256), (N.div_mod b 256) by discriminate. now rewrite H1, H2. Qed.
Lemma u32_inj : forall a b, (a < 4294967296)%N -> (b < 4294967296)%N -> u32 a = u32 b -> a = b.
Proof.
  intros a b HA HB H. unfold u32 in H. injection H as H1 H2 H3 H4.
  apply (f_equal code) in H1, H2, H3, H4.
  assert (HM : forall x, (x mod 256 < 256)%N) by (intros x; apply N.mod_lt; discriminate).
  rewrite !code_chr in H1, H2, H3, H4 by apply HM.
  change 16777216%N with (256 * 256 * 256)%N in H1. change 65536%N with (256 * 256)%N in H2. 
  assert (D3 : forall x, (x / (256 * 256 * 256) = x / 256 / 256 / 256)%N) by (intros x; rewrite !N.div_div by discriminate; reflexivity).
  assert (D2 : forall x, (x / (256 * 256) = x / 256 / 256)%N) by (intros x; rewrite !N.div_div by discriminate; reflexivity).
  rewrite !D3 in H1. rewrite !D2 in H2.
  apply n_step; [|exact H4]. apply n_step; [|exact H3]. apply n_step; [|exact H2].
  apply n_step; [|exact H1]. rewrite !N.div_small; [reflexivity| |]; repeat (apply N.div_lt_upper_bound; [discriminate|]); assumption.
Qed.
Lemma lp_inj : forall a b x y, short a -> short b -> lp a ++ x = lp b ++ y -> a = b /\ x = y.
Proof.
  intros a b x y HA HB H. unfold lp in H. rewrite !sapp_assoc in H. apply sapp_inj_len in H; [|reflexivity]. destruct H as [HU H].
  apply u32_inj in HU; [|exact HA|exact HB]. apply Nnat.Nat2N.inj in HU. now apply sapp_inj_len.
Qed.
Lemma kdf_text_inj : forall z z' alg alg' u u' v v', short alg -> short alg' -> short u -> short u' -> short v -> short v' ->
  String.length z = String.length z' -> kdf_text z alg u v = kdf_text z' alg' u' v' -> z = z' /\ alg = alg' /\ u = u' /\ v = v'.
Proof.
  intros z z' alg alg' u u' v v' S1 S2 S3 S4 S5 S6 HL H. unfold kdf_text in H. apply sapp_inj_l in H.
  apply sapp_inj_len in H; [|exact HL]. destruct H as [H1 H]. apply lp_inj in H; [|assumption|assumption]. destruct H as [H2 H].
  apply lp_inj in H; [|assumption|assumption]. destruct H as [H3 H]. apply lp_inj in H; [|assumption|assumption]. destruct H as [H4 _]. auto.
Qed.
Lemma kek_agreement : forall E sk rsk esk dest skid pk pk' alg, dh_ok E -> String.length sk = 32 -> String.length rsk = 32 -> String.length esk = 32 ->
  known_key E dest pk (x_pub E rsk) -> known_key E skid pk' (x_pub E sk) ->
  exists ze, shared_for E esk dest pk = Ok ze /\ ze = x_dh E rsk (x_pub E esk) /\
    generate_kek E dest sk ze alg pk = generate_kek E skid rsk (x_dh E rsk (x_pub E esk)) alg pk'.
Proof.
  intros E sk rsk esk dest skid pk pk' alg [D1 D2] L1 L2 L3 K1 K2.
  assert (HT : forall s, String.length s = 32 -> take 32 s = s) by (intros s HS; apply take_all; lia).
  assert (S1 : shared_for E esk dest pk = Ok (x_dh E esk (x_pub E rsk))).
  { apply shared_for_ok. exists (x_pub E rsk). rewrite !HT by auto. rewrite D1 by assumption. repeat split; auto; lia. }
  assert (S2 : shared_for E sk dest pk = Ok (x_dh E sk (x_pub E rsk))).
  { apply shared_for_ok. exists (x_pub E rsk). rewrite !HT by auto. rewrite D1 by assumption. repeat split; auto; lia. }
  assert (S3 : shared_for E rsk skid pk' = Ok (x_dh E rsk (x_pub E sk))).
  { apply shared_for_ok. exists (x_pub E sk). rewrite !HT by auto. rewrite D1 by assumption. repeat split; auto; lia. }
  exists (x_dh E esk (x_pub E rsk)). split; [exact S1|]. split; [now apply D2|]. unfold generate_kek. rewrite S2, S3. cbn [rbind].
  rewrite (D2 sk rsk) by assumption. now rewrite (D2 esk rsk) by assumption.
Qed.

(** ** Envelopes without entries *)

Lemma no_entries : forall R text e es, parse text = Some (JObj es) -> jwe_from_str R text = Some e -> ~ In "recipients" (map fst es) ->
  ~ In "header" (map fst es) \/ ~ In "encrypted_key" (map fst es) -> jwe_recipients e = None.
Proof.
  intros R text e es HP HJ HR HN. unfold jwe_from_str in HJ. rewrite HP in HJ. cbn [obind de_jwe] in HJ.
  destruct (de_protected R _) as [p|]; [|discriminate]. cbn [obind] in HJ. destruct (dopt _ (member es "unprotected")) as [u|]; [|discriminate]. cbn [obind] in HJ.
  rewrite (member_absent es "recipients") in HJ by (now apply occ_fresh). cbn [dopt obind] in HJ.
  destruct (dreq _ (member es "ciphertext")) as [c|]; [|discriminate]. cbn [obind] in HJ. destruct (dreq _ (member es "iv")) as [iv|]; [|discriminate]. cbn [obind] in HJ.
  destruct (dopt _ (member es "tag")) as [tag|]; [|discriminate]. cbn [obind] in HJ. destruct (forallb _ _); [|discriminate]. apply some_inj in HJ. subst e.
  unfold jwe_recipients. cbn [je_recipients je_recipient]. unfold de_recipient_from.
  rewrite !member_rest by (cbn; intuition discriminate). destruct HN as [HN|HN].
  - rewrite (member_absent es "header") by (now apply occ_fresh). reflexivity.
  - rewrite (member_absent es "encrypted_key") by (now apply occ_fresh). destruct (dreq _ _); reflexivity.
Qed.
Definition sender_key_of (E : env) (e : jwe) (spk : option string) (key : string) : Prop :=
  spk = Some key \/ (spk = None /\ exists skid doc, jwe_get e jh_skid = Some skid /\ resolve E skid = Some doc /\ doc_key doc "X25519" = Some key).
Lemma receive_static : forall E text sk spk e t, jwe_from_str (rt E 1) text = Some e -> jwe_recipients e = None ->
  receive_jwe E text sk spk = Ok t <->
  exists alg a key m, jwe_get e jh_alg = Some alg /\ In (alg, a) wrap_table /\ sender_key_of E e spk key /\ 32 <= String.length sk /\ 32 <= String.length key /\
    decrypt (rt E 2) (rt E 3) text (decrypter E a) (x_dh E (take 32 sk) (take 32 key)) = Ok m /\ t = message_json m.
Proof.
  intros E text sk spk e t HJ HN. unfold receive_jwe. rewrite HJ. cbn [oerr rbind]. split.
  - intros H. rbinv H. apply oerr_ok in E0. rewrite HN in E5. apply arr32_inv in E2, E3. destruct E2 as [L1 ->]. destruct E3 as [L2 ->].
    apply ok_inj in H. apply crypto_alg_of_table in E4.
    exists v, v3, v0, v4. split; [exact E0|]. split; [exact E4|]. split; [|auto].
    destruct spk as [k|]; [left; now apply ok_inj in E1; subst|]. right. split; [reflexivity|].
    destruct (jwe_get e jh_skid) as [skid|] eqn:ES; [|discriminate]. cbn [oerr rbind] in E1. destruct (resolve E skid) as [doc|] eqn:ERs; [|discriminate]. cbn [oerr rbind] in E1.
    apply oerr_ok in E1. exists skid, doc. auto.
  - intros [alg [a [key [m [H1 [H2 [H3 [L1 [L2 [H4 ->]]]]]]]]]]. rewrite H1. cbn [oerr rbind].
    assert (HK : match spk with Some k => Ok k | None => let? skid := oerr (jwe_get e jh_skid) (EGeneric "skid missing") in
       let? doc := oerr (resolve E skid) EDidResolveFailed in oerr (doc_key doc "X25519") EBadDid end = Ok key).
    { destruct H3 as [->|[-> [skid [doc [G1 [G2 G3]]]]]]; [reflexivity|]. rewrite G1. cbn [oerr rbind]. rewrite G2. cbn [oerr rbind]. now rewrite G3. }
    rewrite HK. cbn [rbind]. rewrite !arr32_ok by assumption. cbn [rbind]. apply crypto_alg_of_table in H2. rewrite H2. cbn [rbind]. rewrite HN, H4. reflexivity.
Qed.
Lemma receive_empty : forall E text sk spk e, jwe_from_str (rt E 1) text = Some e -> jwe_recipients e = Some [] ->
  (forall t, receive_jwe E text sk spk <> Ok t) /\
  (32 <= String.length sk -> (forall key, sender_key_of E e spk key -> 32 <= String.length key) -> exists x, receive_jwe E text sk spk = Err x).
Proof.
  intros E text sk spk e HJ HN. split.
  - intros t H. unfold receive_jwe in H. rewrite HJ in H. cbn [oerr rbind] in H. rbinv H. rewrite HN in E5. discriminate.
  - intros L HK. unfold receive_jwe. rewrite HJ. cbn [oerr rbind]. destruct (jwe_get e jh_alg) as [alg|]; [|now eexists]. cbn [oerr rbind].
    match goal with |- exists x, rbind ?y _ = _ => destruct y as [key|x|] eqn:EK end.
    + cbn [rbind]. rewrite arr32_ok by exact L. cbn [rbind]. rewrite arr32_ok.
      * cbn [rbind]. destruct (crypto_alg_of alg) as [a|x|] eqn:EA; [|now exists x|now elim (crypto_alg_of_np alg)]. cbn [rbind]. rewrite HN. eexists. reflexivity.
      * apply HK. destruct spk as [k|]; [left; now apply ok_inj in EK; subst|]. right. split; [reflexivity|]. rbinv EK. apply oerr_ok in E0, E1, EK. exists v, v0. auto.
    + now exists x.
    + destruct spk; [discriminate|]. destruct (jwe_get e jh_skid) as [skid|]; [|discriminate]. cbn [oerr rbind] in EK.
      destruct (resolve E skid) as [doc|]; [|discriminate]. cbn [oerr rbind] in EK. destruct (doc_key doc "X25519"); discriminate.
Qed.

(** Sender and recipient agree on the static secret: [encrypt] with it, for a message without recipient entries, is received. *)
Lemma static_round_key : forall E a iv m key rsk spk gpk from text, env_ok E -> crypto_ok E -> sendable E m -> few_custom (m_jwm m) ->
  avoids envelope_names (dh_other (m_did m)) -> jh_typ (m_jwm m) <> DidCommJws -> jh_alg (m_jwm m) = Some (wrap_name a) -> usable a ->
  m_recipients m = None -> m_flat_jwe m = false -> dh_from (m_did m) = Some from -> 32 <= String.length key -> 32 <= String.length rsk ->
  known_key E from spk key -> encrypt iv m (encryptor E a) (x_dh E (take 32 rsk) (take 32 key)) = Ok text ->
  receive E text (Some rsk) spk gpk = Ok (re_message (rt E 9) (re_message (rt E 3) m)).
Proof.
  intros E a iv m key rsk spk gpk from text HE HC HS HF HA HTy HAl HU HR HFl HFr L1 L2 HK HEn.
  apply encrypt_ok in HEn. destruct HEn as [h [c [sh [EH [EC [LC [HSh ->]]]]]]]. rewrite HFl in HSh. rewrite HR in HSh. subst sh.
  assert (Hh : h = jh_with_skid (jh_with_kid (match jh_typ (m_jwm m) with DidCommForward => m_jwm m | _ => jh_with_typ (m_jwm m) DidCommJwe end) (hd_error (dh_to (m_did m)))) (dh_from (m_did m)) /\ exists t l, dh_to (m_did m) = t :: l).
  { unfold encrypt_header in EH. rewrite HR in EH. unfold first_to in EH. destruct (dh_to (m_did m)) as [|t l]; [discriminate|]. cbn [rbind] in EH. apply ok_inj in EH. split; [now symmetry|now exists t, l]. }
  destruct Hh as [Hh [t0 [l0 HTo]]].
  assert (HG : good_header h).
  { rewrite Hh. apply good_skid; [rewrite HFr; eapply sendable_from_rust; eassumption|]. apply good_kid.
    - rewrite HTo. cbn [hd_error opt_all]. pose proof (rm_strings m (sd_rust E m HS)) as HM. unfold message_strings in HM. apply Forall_app in HM. destruct HM as [_ HM].
      apply Forall_app in HM. destruct HM as [HD _]. unfold did_strings in HD. fa. match goal with G : Forall rust_string (dh_to _) |- _ => rewrite HTo in G; now inversion G end.
    - pose proof (sendable_header E m HS) as HH. destruct (jh_typ (m_jwm m)); try (now apply good_typ); exact HH. }
  assert (HFh : few_custom h) by (rewrite Hh; destruct (jh_typ (m_jwm m)); exact HF).
  assert (HAh : jh_alg h = Some (wrap_name a)) by (rewrite Hh; destruct (jh_typ (m_jwm m)); exact HAl).
  assert (HSh : jh_skid h = Some from) by (rewrite Hh; exact HFr).
  set (ct := take (String.length c - 16) c) in *. set (tag := drop (String.length c - 16) c) in *.
  assert (HGJ : good_jwe (sealed_env h (None, None) ct tag iv)).
  { unfold good_jwe. cbn. repeat split; try exact I; try apply b64_utf8; try apply HG. }
  destruct (cipher_round E a iv _ _ _ c HC HU EC) as [HD [HL _]].
  apply receive_sealed_text; auto; [apply classify_jwe|].
  eapply receive_static; [apply (jwe_round (rt E 1) _ HGJ)|reflexivity|]. exists (wrap_name a), a, key, (re_message (rt E 3) m).
  split; [rewrite re_sealed_env; apply jwe_get_env; exact HAh|]. split; [apply crypto_alg_of_table, crypto_alg_of_ok; now split|]. split.
  - destruct HK as [->|[-> [doc [G1 G2]]]]; [now left|]. right. split; [reflexivity|]. exists from, doc. split; [|auto]. rewrite re_sealed_env. apply jwe_get_env. exact HSh.
  - split; [exact L2|]. split; [exact L1|]. split; [|reflexivity].
    rewrite decrypt_env by exact HGJ. unfold ct, tag. rewrite take_drop.
    rewrite re_jwm_few; [|now apply env_drt|exact HFh]. rewrite HD. now rewrite (sendable_from_slice E 3 m HS).
Qed.
Lemma static_round_trip : forall E a iv m sk rsk spk gpk from text, env_ok E -> crypto_ok E -> sendable E m -> few_custom (m_jwm m) ->
  avoids envelope_names (dh_other (m_did m)) -> jh_typ (m_jwm m) <> DidCommJws -> jh_alg (m_jwm m) = Some (wrap_name a) -> usable a ->
  m_recipients m = None -> m_flat_jwe m = false -> dh_from (m_did m) = Some from -> String.length sk = 32 -> String.length rsk = 32 ->
  known_key E from spk (x_pub E sk) -> encrypt iv m (encryptor E a) (x_dh E sk (x_pub E rsk)) = Ok text ->
  receive E text (Some rsk) spk gpk = Ok (re_message (rt E 9) (re_message (rt E 3) m)).
Proof.
  intros E a iv m sk rsk spk gpk from text HE HC HS HF HA HTy HAl HU HR HFl HFr L1 L2 HK HEn. destruct (co_dh E HC) as [D1 D2].
  assert (HT : forall s, String.length s = 32 -> take 32 s = s) by (intros s Hs; apply take_all; lia). pose proof (D1 sk L1) as L3.
  apply (static_round_key E a iv m (x_pub E sk) rsk spk gpk from text); auto; [lia|lia|]. rewrite !HT by auto. now rewrite <- (D2 sk rsk) by assumption.
Qed.

(** ** Other entries *)

Lemma find_cek_skip : forall E e sk pk r post pre acc, Forall (fun x => exists err, decrypt_cek E e sk x pk = Err err) pre ->
  (forall err, decrypt_cek E e sk r pk <> Err err) -> find_cek E e sk pk acc (pre ++ r :: post)%list = decrypt_cek E e sk r pk.
Proof.
  intros E e sk pk r post. induction pre as [|x pre IH]; intros acc HP HR; cbn [app find_cek].
  - destruct (decrypt_cek E e sk r pk) as [k|err|]; [reflexivity|now elim (HR err)|reflexivity].
  - inversion HP as [|? ? [err HE] HP']; subst. rewrite HE. now apply IH.
Qed.
Lemma same_get : forall A a b (f : jwm_header -> option A), same_but_entries a b -> jwe_get a f = jwe_get b f.
Proof. intros A a b f [H1 [H2 _]]. unfold jwe_get. now rewrite H1, H2. Qed.
Lemma decrypt_same : forall R1 R2 text text' f key e e', jwe_from_slice R1 text = Some e -> jwe_from_slice R1 text' = Some e' -> same_but_entries e e' ->
  decrypt R1 R2 text f key = decrypt R1 R2 text' f key.
Proof.
  intros R1 R2 text text' f key e e' H H' [S1 [S2 [S3 [S4 S5]]]]. unfold decrypt. rewrite H, H'. cbn [oerr rbind]. unfold jwe_payload, jwe_iv. now rewrite S1, S3, S4, S5.
Qed.
Lemma receive_other_entries : forall E text text' sk spk e e' e2 e2' pre r post pre' post',
  jwe_from_str (rt E 1) text = Some e -> jwe_from_str (rt E 1) text' = Some e' -> same_but_entries e e' ->
  jwe_from_slice (rt E 2) text = Some e2 -> jwe_from_slice (rt E 2) text' = Some e2' -> same_but_entries e2 e2' ->
  jwe_recipients e = Some (pre ++ r :: post)%list -> jwe_recipients e' = Some (pre' ++ r :: post')%list ->
  Forall (fun x => exists err, decrypt_cek E e sk x spk = Err err) (pre ++ pre')%list -> (forall err, decrypt_cek E e sk r spk <> Err err) ->
  receive_jwe E text sk spk = receive_jwe E text' sk spk.
Proof.
  intros E text text' sk spk e e' e2 e2' pre r post pre' post' H1 H1' HS H2 H2' HS2 HR HR' HP HK.
  unfold receive_jwe. rewrite H1, H1'. cbn [oerr rbind]. rewrite <- !(same_get _ e e') by exact HS.
  destruct (jwe_get e jh_alg) as [alg|] eqn:EA; [|reflexivity]. cbn [oerr rbind].
  match goal with |- rbind ?y _ = rbind ?y _ => destruct y as [pk| |]; [|reflexivity|reflexivity] end. cbn [rbind].
  destruct (arr32 sk); [|reflexivity|reflexivity]. cbn [rbind]. destruct (arr32 pk); [|reflexivity|reflexivity]. cbn [rbind].
  destruct (crypto_alg_of alg); [|reflexivity|reflexivity]. cbn [rbind]. rewrite HR, HR'. apply Forall_app in HP. destruct HP as [P1 P2].
  rewrite (find_cek_ext E e' e) by (symmetry; now apply same_get). rewrite !find_cek_skip by assumption.
  destruct (cek_error _); [|reflexivity|reflexivity]. cbn [rbind]. now rewrite (decrypt_same (rt E 2) (rt E 3) text text' _ _ e2 e2').
Qed.
(** An entry that cannot even be tried. *)
Lemma bad_entry_panics : forall E e sk r pk alg a skid key ek epub t iv t2 sealed t3 tag, jwe_get e jh_alg = Some alg -> In (alg, a) wrap_table ->
  jwe_get e jh_skid = Some skid -> known_key E skid pk key -> 32 <= String.length sk -> 32 <= String.length key ->
  jk_epk (rc_header r) = Some ek -> b64_decode (ep_x ek) = Some epub -> String.length epub = 32 ->
  map_get "iv" (jk_other (rc_header r)) = Some t -> b64_decode t = Some iv -> String.length iv <> nonce_len a ->
  t2 = rc_encrypted_key r -> b64_decode t2 = Some sealed -> map_get "tag" (jk_other (rc_header r)) = Some t3 -> b64_decode t3 = Some tag ->
  decrypt_cek E e sk r pk = Panic.
Proof.
  intros E e sk r pk alg a skid key ek epub t iv t2 sealed t3 tag HA HI HS HK L1 L2 HE HX LE HV HB HN -> HC HT HG.
  unfold decrypt_cek. rewrite HA, HS, HE. cbn [oerr rbind]. rewrite HX. cbn [oerr rbind]. rewrite LE. cbn [Nat.eqb negb]. rewrite arr32_ok by exact L1. cbn [rbind].
  apply crypto_alg_of_table, crypto_alg_of_ok in HI. destruct HI as [HU ->].
  assert (HG1 : exists k, generate_kek E skid sk (x_dh E (take 32 sk) epub) (wrap_name a) pk = Ok k) by (eexists; apply generate_kek_ok; exists key; auto).
  destruct HG1 as [k ->]. cbn [rbind]. rewrite HV. cbn [oerr rbind]. rewrite HB. cbn [oerr rbind]. rewrite HT. cbn [oerr rbind]. rewrite HC. cbn [oerr rbind]. rewrite HG. cbn [oerr rbind].
  destruct a; [| |congruence]; cbn [wrap_name String.eqb Ascii.eqb Bool.eqb]; unfold exact_len; cbn [nonce_len] in HN.
  - destruct (Nat.eqb_spec (String.length iv) 24); [contradiction|reflexivity].
  - destruct (Nat.eqb_spec (String.length iv) 12); [contradiction|reflexivity].
Qed.
Lemma bad_entry_receive : forall E text sk spk e skid key r post pre alg a, jwe_from_str (rt E 1) text = Some e -> jwe_get e jh_alg = Some alg -> In (alg, a) wrap_table ->
  jwe_get e jh_skid = Some skid -> known_key E skid spk key -> 32 <= String.length sk -> 32 <= String.length key ->
  jwe_recipients e = Some (pre ++ r :: post)%list -> Forall (fun x => exists err, decrypt_cek E e sk x spk = Err err) pre -> decrypt_cek E e sk r spk = Panic ->
  receive_jwe E text sk spk = Panic.
Proof.
  intros E text sk spk e skid key r post pre alg a HJ HA HI HS HK L1 L2 HR HP HD. unfold receive_jwe. rewrite HJ. cbn [oerr rbind]. rewrite HA. cbn [oerr rbind].
  rewrite (sender_key E e spk skid key HS HK). cbn [rbind]. rewrite !arr32_ok by assumption. cbn [rbind]. apply crypto_alg_of_table in HI. rewrite HI. cbn [rbind].
  rewrite HR, find_cek_skip by (try exact HP; rewrite HD; discriminate). now rewrite HD.
Qed.

(** ** No panic for envelopes with right lengths *)

Lemma decrypt_cek_np : forall E e sk r pk, 32 <= String.length sk -> (forall did key, known_key E did pk key -> 32 <= String.length key) ->
  (forall alg a, jwe_get e jh_alg = Some alg -> In (alg, a) wrap_table -> entry_lengths a r) -> decrypt_cek E e sk r pk <> Panic.
Proof.
  intros E e sk r pk L HK HL. unfold decrypt_cek. destruct (jwe_get e jh_alg) as [alg|] eqn:EA; [|discriminate]. cbn [oerr rbind].
  destruct (jwe_get e jh_skid) as [skid|]; [|discriminate]. cbn [oerr rbind]. destruct (jk_epk _) as [ek|]; [|discriminate]. cbn [oerr rbind].
  destruct (b64_decode (ep_x ek)) as [epub|]; [|discriminate]. cbn [oerr rbind]. destruct (negb _); [discriminate|]. rewrite arr32_ok by exact L. cbn [rbind].
  unfold generate_kek. pose proof (shared_np E sk skid pk L (HK skid)) as HN. destruct (shared_for E sk skid pk) as [sh|x|]; [|discriminate|congruence]. cbn [rbind].
  unfold concat_kdf. destruct (kdf_input _ alg None None) as [x|x|] eqn:EK; [|discriminate|].
  2:{ unfold kdf_input, len_input, opt_input in EK. destruct (_ <? _)%N; discriminate. }
  cbn [rbind]. destruct (map_get "iv" _) as [t|] eqn:EV; [|discriminate]. cbn [oerr rbind]. destruct (b64_decode t) as [iv|] eqn:EB; [|discriminate]. cbn [oerr rbind].
  destruct (map_get "tag" _) as [t3|]; [|discriminate]. cbn [oerr rbind]. destruct (b64_decode (rc_encrypted_key r)); [|discriminate]. cbn [oerr rbind].
  destruct (b64_decode t3); [|discriminate]. cbn [oerr rbind].
  destruct (String.eqb_spec alg "ECDH-1PU+XC20PKW") as [->|]; [|destruct (String.eqb_spec alg "ECDH-1PU+A256KW") as [->|]; [|discriminate]].
  - destruct (HL _ XC20P eq_refl) as [HI _]; [right; now left|]. rewrite exact_len_ok by (exact (HI _ _ EV EB)). cbn [rbind].
    rewrite exact_len_ok by apply sha256_length. cbn [rbind]. apply oerr_no_panic.
  - destruct (HL _ A256GCM eq_refl) as [HI _]; [now left|]. rewrite exact_len_ok by (exact (HI _ _ EV EB)). cbn [rbind].
    rewrite exact_len_ok by apply sha256_length. cbn [rbind]. apply oerr_no_panic.
Qed.
Lemma decrypt_cek_length : forall E e sk r pk k, dec_length (xc_dec E) -> dec_length (gcm_dec E) ->
  (forall alg a, jwe_get e jh_alg = Some alg -> In (alg, a) wrap_table -> entry_lengths a r) -> decrypt_cek E e sk r pk = Ok k -> String.length k = 32.
Proof.
  intros E e sk r pk k DX DG HL H. unfold decrypt_cek in H. destruct (jwe_get e jh_alg) as [alg|] eqn:EA; [|discriminate]. cbn [oerr rbind] in H.
  destruct (jwe_get e jh_skid) as [skid|]; [|discriminate]. cbn [oerr rbind] in H. destruct (jk_epk _) as [ek|]; [|discriminate]. cbn [oerr rbind] in H.
  destruct (b64_decode (ep_x ek)) as [epub|]; [|discriminate]. cbn [oerr rbind] in H. destruct (negb _); [discriminate|].
  destruct (arr32 sk) as [s| |]; [|discriminate|discriminate]. cbn [rbind] in H. destruct (generate_kek _ _ _ _ _ _) as [kek| |]; [|discriminate|discriminate]. cbn [rbind] in H.
  destruct (map_get "iv" _) as [t|] eqn:EV; [|discriminate]. cbn [oerr rbind] in H. destruct (b64_decode t) as [iv|] eqn:EB; [|discriminate]. cbn [oerr rbind] in H.
  destruct (map_get "tag" _) as [t3|] eqn:ET; [|discriminate]. cbn [oerr rbind] in H. destruct (b64_decode (rc_encrypted_key r)) as [sealed|] eqn:ES; [|discriminate]. cbn [oerr rbind] in H.
  destruct (b64_decode t3) as [tag|] eqn:EG; [|discriminate]. cbn [oerr rbind] in H.
  destruct (String.eqb_spec alg "ECDH-1PU+XC20PKW") as [->|]; [|destruct (String.eqb_spec alg "ECDH-1PU+A256KW") as [->|]; [|discriminate]]; rbinv H; apply oerr_ok in H.
  - destruct (HL _ XC20P eq_refl) as [_ HI]; [right; now left|]. specialize (HI _ _ _ ET EG ES). apply DX in H. rewrite slen_app in H. lia.
  - destruct (HL _ A256GCM eq_refl) as [_ HI]; [now left|]. specialize (HI _ _ _ ET EG ES). apply DG in H. rewrite slen_app in H. lia.
Qed.
Lemma find_cek_np : forall E e sk pk l acc, acc <> Panic -> (forall r, In r l -> decrypt_cek E e sk r pk <> Panic) -> find_cek E e sk pk acc l <> Panic.
Proof.
  intros E e sk pk. induction l as [|r l IH]; intros acc HA HL; cbn [find_cek]; [exact HA|]. pose proof (HL r (or_introl eq_refl)) as HR.
  destruct (decrypt_cek E e sk r pk); [discriminate|apply IH; [discriminate|intros r' H; apply HL; now right]|congruence].
Qed.
Lemma decrypt_np : forall E a R1 R2 text key, usable a -> String.length key = 32 ->
  (forall e, jwe_from_slice R1 text = Some e -> (exists c, b64_decode (je_ciphertext e) = Some c) /\ exists iv, b64_decode (je_iv e) = Some iv /\ String.length iv <= 24) ->
  decrypt R1 R2 text (decrypter E a) key <> Panic.
Proof.
  intros E a R1 R2 text key HU HK HL. unfold decrypt. destruct (jwe_from_slice R1 text) as [e|] eqn:EJ; [|discriminate]. cbn [oerr rbind].
  destruct (HL e eq_refl) as [[c HC] [iv [HI LI]]]. destruct (je_protected e) as [h|]; [|discriminate]. cbn [oerr rbind]. destruct (je_tag e) as [tag|]; [|discriminate]. cbn [oerr rbind].
  unfold jwe_payload, jwe_iv. rewrite HC, HI. cbn [unwrap rbind]. destruct (b64_decode tag) as [tg|]; [|discriminate]. cbn [oerr rbind].
  assert (HD : decrypter E a iv key (c ++ tg) (header_b64 h) <> Panic).
  { unfold decrypter, check_nonce. destruct a; [| |congruence].
    - destruct (Nat.ltb_spec (String.length iv) 24); [discriminate|]. cbn [rbind]. rewrite exact_len_ok by exact HK. cbn [rbind]. rewrite exact_len_ok by lia. cbn [rbind]. apply oerr_no_panic.
    - destruct (Nat.ltb_spec (String.length iv) 12); [discriminate|]. cbn [rbind]. rewrite exact_len_ok by exact HK. cbn [rbind]. apply oerr_no_panic. }
  destruct (decrypter _ _ _ _ _ _); [apply oerr_no_panic|discriminate|congruence].
Qed.
Lemma receive_jwe_np : forall E text sk spk, dec_length (xc_dec E) -> dec_length (gcm_dec E) -> (forall a b, String.length a = 32 -> String.length b = 32 -> String.length (x_dh E a b) = 32) ->
  32 <= String.length sk -> (forall did key, known_key E did spk key -> 32 <= String.length key) ->
  (forall k e, jwe_from_str (rt E k) text = Some e -> envelope_lengths e) -> receive_jwe E text sk spk <> Panic.
Proof.
  intros E text sk spk DX DG DD L HK HL. unfold receive_jwe. destruct (jwe_from_str (rt E 1) text) as [e|] eqn:EJ; [|discriminate]. cbn [oerr rbind].
  destruct (jwe_get e jh_alg) as [alg|] eqn:EA; [|discriminate]. cbn [oerr rbind].
  match goal with |- rbind ?y _ <> _ => destruct y as [pk|x|] eqn:EK end; [|discriminate|].
  2:{ destruct spk; [discriminate|]. destruct (jwe_get e jh_skid) as [skid|]; [|discriminate]. cbn [oerr rbind] in EK.
      destruct (resolve E skid) as [doc|]; [|discriminate]. cbn [oerr rbind] in EK. destruct (doc_key doc "X25519"); discriminate. }
  assert (LP : 32 <= String.length pk).
  { destruct spk as [k|]; [apply ok_inj in EK; subst; apply (HK ""); now left|]. rbinv EK. apply oerr_ok in E0, E1, EK. apply (HK v). right. split; [reflexivity|]. now exists v0. }
  cbn [rbind]. rewrite !arr32_ok by assumption. cbn [rbind]. destruct (crypto_alg_of alg) as [a| |] eqn:EC; [|discriminate|now elim (crypto_alg_of_np alg)]. cbn [rbind].
  pose proof (HL _ _ EJ) as [_ [_ HEnt]]. pose proof EC as HI. apply crypto_alg_of_table in HI. pose proof EC as HUA. apply crypto_alg_of_ok in HUA. destruct HUA as [HU _].
  assert (HD2 : forall key, String.length key = 32 -> decrypt (rt E 2) (rt E 3) text (decrypter E a) key <> Panic).
  { intros key LK. apply decrypt_np; [exact HU|exact LK|]. intros e2 H2. assert (H2' : jwe_from_str (rt E 2) text = Some e2).
    { unfold jwe_from_slice, parse_slice in H2. unfold jwe_from_str. destruct (utf8_valid text); [exact H2|discriminate]. }
    apply HL in H2'. destruct H2' as [G1 [G2 _]]. now split. }
  apply rbind_no_panic; [|discriminate]. destruct (jwe_recipients e) as [l|] eqn:ER.
  - assert (HEl : forall r, In r l -> forall alg0 a0, jwe_get e jh_alg = Some alg0 -> In (alg0, a0) wrap_table -> entry_lengths a0 r).
    { intros r HR alg0 a0 G1 G2. exact (HEnt alg0 a0 l r G1 G2 eq_refl HR). }
    destruct (find_cek E e sk spk _ l) as [cek|x|] eqn:EF; cbn [cek_error rbind]; [|discriminate|].
    + apply HD2. apply find_cek_in in EF; [|discriminate]. destruct EF as [r [G1 G2]]. apply (decrypt_cek_length E e sk r spk cek DX DG); [now apply HEl|exact G2].
    + exfalso. revert EF. apply find_cek_np; [discriminate|]. intros r HR. apply decrypt_cek_np; [exact L|exact HK|exact (HEl r HR)].
  - apply HD2. apply DD; rewrite take_length; auto.
Qed.
Lemma receive_np : forall E text sk spk gpk, (forall k, sk = Some k -> receive_jwe E text k spk <> Panic) -> receive E text sk spk gpk <> Panic.
Proof.
  intros E text sk spk gpk H. unfold receive. apply rbind_no_panic; [apply get_message_type_np|]. intros t _. apply rbind_no_panic.
  - destruct (is_jwe_type t); [|discriminate]. destruct sk as [k|]; [|discriminate]. cbn [oerr rbind]. now apply H.
  - intros x _. apply rbind_no_panic; [apply get_message_type_np|]. intros b _.
    apply rbind_no_panic; [destruct (is_jws_type b); [apply receive_jws_np|discriminate]|]. intros; apply oerr_no_panic.
Qed.

(** ** The external crypto path *)

Lemma b64_brace : forall r, b64_decode (String "{" r) = None.
Proof. intros [|c2 [|c3 [|c4 r]]]; try reflexivity; cbn; [destruct (Ascii.eqb c3 "=")|destruct r; [destruct (Ascii.eqb c4 "="); [destruct (Ascii.eqb c3 "=")|]|]]; reflexivity. Qed.
Lemma get_iv_fails : forall R e x, String.length (je_iv e) <> 24 -> get_iv R (jwe_json e) <> Ok x.
Proof.
  intros R e x HL H. unfold get_iv in H. destruct (utf8_valid _); [|discriminate]. assert (HB : exists r, jwe_json e = String "{" r) by (eexists; reflexivity).
  destruct HB as [r HB]. rewrite HB in H. cbn [before_dot] in H. change (code "{" =? 46)%N with false in H. cbv iota in H.
  destruct (before_dot r) as [h|]; cbn [option_map] in H.
  - rewrite b64_brace in H. discriminate.
  - rewrite <- HB in H. unfold jwe_json in H. rewrite parse_print in H by apply wf_ser_jwe. cbn [oerr rbind] in H.
    destruct (value_of R max_depth (ser_jwe e)) as [v|] eqn:EV; [|discriminate]. cbn [oerr rbind] in H. apply value_of_some in EV. destruct EV as [_ EV].
    unfold ser_jwe in EV. rewrite vof_obj in EV.
    match type of EV with context [raw_member ?l] => assert (EM : raw_member l = None) end.
    { destruct (je_protected e); [reflexivity|]. destruct (je_unprotected e); [reflexivity|]. destruct (je_recipient e); [reflexivity|].
      destruct (je_recipients e); reflexivity. }
    rewrite EM in EV. destruct (all_some _) as [es|] eqn:EA; [|discriminate]. cbn [option_map] in EV. apply some_inj in EV. subst v.
    destruct (map_get "iv" (bt_of_entries es)) as [y|] eqn:EG; [|discriminate]. apply map_get_In, bt_of_entries_In in EG.
    apply all_some_Forall2 in EA.
    assert (HI : exists j, In ("iv", j) (sopt "protected" (fun h => jstr (header_b64 h)) (je_protected e) ++ sopt "unprotected" ser_jwm (je_unprotected e)
        ++ match je_recipient e with Some r => recipient_entries r | None => [] end ++ sopt "recipients" (fun l => JArr (map ser_recipient l)) (je_recipients e)
        ++ [("ciphertext", jstr (je_ciphertext e)); ("iv", jstr (je_iv e))] ++ sopt "tag" jstr (je_tag e))%list /\ vof R j = Some y).
    { revert EA EG. generalize (sopt "protected" (fun h => jstr (header_b64 h)) (je_protected e) ++ sopt "unprotected" ser_jwm (je_unprotected e)
        ++ match je_recipient e with Some r => recipient_entries r | None => [] end ++ sopt "recipients" (fun l => JArr (map ser_recipient l)) (je_recipients e)
        ++ [("ciphertext", jstr (je_ciphertext e)); ("iv", jstr (je_iv e))] ++ sopt "tag" jstr (je_tag e))%list as l. intros l EA EG.
      induction EA as [|[k j] kv l es' HK HF IH]; [destruct EG|]. apply okv_some in HK. destruct HK as [K1 K2]. cbn [fst snd] in K1, K2. destruct EG as [->|EG].
      - exists j. cbn [fst snd] in K1, K2. subst k. split; [now left|exact K2].
      - destruct (IH EG) as [j' [G1 G2]]. exists j'. split; [now right|exact G2]. }
    destruct HI as [j [HI HV]]. assert (HJ : j = jstr (je_iv e)).
    { destruct e as [x1 x2 x3 x4 x5 x6 x7]. cbn [je_protected je_unprotected je_recipient je_recipients je_ciphertext je_iv je_tag] in *.
      destruct x1, x2, x3, x4, x7; cbn in HI; repeat (destruct HI as [HI|HI]; [try discriminate; try (injection HI as <-; reflexivity)|]); destruct HI. }
    subst j. unfold jstr in HV. rewrite vof_str in HV. apply some_inj in HV. subst y.
    destruct (Nat.eqb_spec (String.length (je_iv e)) 24); [contradiction|discriminate].
Qed.
Lemma b64_24 : forall s, String.length s = 24 -> String.length (b64_encode s) <> 24.
Proof. intros s H. rewrite b64_encode_length, H. discriminate. Qed.
Lemma get_iv_encrypt : forall R iv m f cek text x, String.length iv = 24 -> encrypt iv m f cek = Ok text -> get_iv R text <> Ok x.
Proof.
  intros R iv m f cek text x HL H. apply encrypt_ok in H. destruct H as [h [c [sh [_ [_ [_ [_ ->]]]]]]]. apply get_iv_fails. cbn [sealed_env je_iv]. now apply b64_24.
Qed.
Lemma get_iv_seal : forall R E rnd m sk keys text x, rand_ok rnd -> seal E rnd m sk keys = Ok text -> get_iv R text <> Ok x.
Proof.
  intros R E rnd m sk keys text x HR H. apply seal_ok in H. destruct H as [_ [_ [_ [_ [rs [a [_ [_ [_ [_ H]]]]]]]]]]. eapply get_iv_encrypt; [|exact H]. apply HR.
Qed.
Lemma get_iv_external : forall R rnd m c text x, String.length rnd = 24 -> seal_pre_encrypted rnd m c = Ok text -> get_iv R text <> Ok x.
Proof. intros R rnd m c text x HL H. unfold seal_pre_encrypted in H. rbinv H. apply ok_inj in H. subst text. apply get_iv_fails. cbn. now apply b64_24. Qed.

Lemma default_good : good_header jwm_default.
Proof. split; [split; [constructor|split; exact I]|split; exact I]. Qed.
Lemma sendable_recipients_good : forall E m, sendable E m -> opt_all (Forall good_rc) (m_recipients m).
Proof.
  intros E m HS. pose proof (sd_recipients E m HS) as H1. pose proof (rm_recipients m (sd_rust E m HS)) as H2. pose proof (rm_strings m (sd_rust E m HS)) as H3.
  unfold message_strings in H3. destruct (m_recipients m) as [l|]; [|exact I]. cbn [opt_all] in *. rewrite Forall_forall in *. intros r HR.
  split; [|split; [now apply H2|now apply H1]]. apply Forall_forall. intros s Hs. apply H3. rewrite !in_app_iff. right. right. left. cbn [oflat]. apply in_flat_map. now exists r.
Qed.
Lemma external_round : forall E R rnd m c, sendable E m -> exists text u, seal_pre_encrypted rnd m c = Ok text /\ jh_skid u = dh_from (m_did m) /\
  jwe_from_slice R text = Some (re_jwe R (jwe_new (Some u) (m_recipients m) c (Some (m_jwm m)) None None rnd)) /\ rust_string text.
Proof.
  intros E R rnd m c HS. pose proof (sendable_header E m HS) as HH. pose proof (sendable_recipients_good E m HS) as HR.
  assert (HF : opt_all rust_string (dh_from (m_did m))) by (destruct (dh_from (m_did m)) as [f|] eqn:EF; [eapply sendable_from_rust; eassumption|exact I]).
  assert (HU : exists u, (match m_recipients m with Some _ => Ok (jh_with_skid jwm_default (dh_from (m_did m)))
     | None => let? t := first_to (m_did m) in Ok (jh_with_kid (jh_with_skid jwm_default (dh_from (m_did m))) (Some t)) end) = Ok u /\ good_header u /\ jh_skid u = dh_from (m_did m)).
  { destruct (m_recipients m); [eexists; split; [reflexivity|]; split; [apply good_skid; [exact HF|exact default_good]|reflexivity]|].
    unfold first_to. destruct (dh_to (m_did m)) as [|t l] eqn:ET; [now elim (sd_to E m HS)|]. eexists. split; [reflexivity|]. split; [|reflexivity].
    apply good_kid; [|apply good_skid; [exact HF|exact default_good]]. cbn [opt_all].
    pose proof (rm_strings m (sd_rust E m HS)) as HM. unfold message_strings in HM. apply Forall_app in HM. destruct HM as [_ HM].
    apply Forall_app in HM. destruct HM as [HD _]. unfold did_strings in HD. fa. match goal with G : Forall rust_string (dh_to _) |- _ => rewrite ET in G; now inversion G end. }
  destruct HU as [u [HU [HGu HSk]]]. unfold seal_pre_encrypted. rewrite HU. cbn [rbind]. eexists. exists u. split; [reflexivity|]. split; [exact HSk|].
  assert (HG : good_jwe (jwe_new (Some u) (m_recipients m) c (Some (m_jwm m)) None None rnd)).
  { unfold good_jwe, jwe_new. cbn. split; [exact HH|]. split; [exact HGu|]. split; [exact I|]. split; [exact HR|]. split; [apply b64_utf8|]. split; [apply b64_utf8|exact I]. }
  split; [apply (jwe_round R _ HG)|now apply jwe_json_utf8].
Qed.
Lemma external_received : forall E R rnd m c, sendable E m -> dh_from (m_did m) <> None \/ jh_skid (m_jwm m) <> None -> exists text e,
  seal_pre_encrypted rnd m c = Ok text /\ received_as_jwe R text = Some e /\ jwe_payload e = Ok c /\ jwe_iv e = Ok rnd /\
  jwe_get e jh_skid = match jh_skid (m_jwm m) with Some s => Some s | None => dh_from (m_did m) end.
Proof.
  intros E R rnd m c HS HF. destruct (external_round E R rnd m c HS) as [text [u [H1 [H2 [H3 _]]]]]. exists text. eexists. split; [exact H1|].
  unfold received_as_jwe. rewrite H3.
  assert (HG : jwe_get (re_jwe R (jwe_new (Some u) (m_recipients m) c (Some (m_jwm m)) None None rnd)) jh_skid = match jh_skid (m_jwm m) with Some s => Some s | None => dh_from (m_did m) end).
  { unfold jwe_get, fallback, re_jwe, jwe_new. cbn. rewrite H2. destruct (jh_skid (m_jwm m)); reflexivity. }
  rewrite HG. destruct (jh_skid (m_jwm m)) as [s|].
  - split; [reflexivity|]. unfold jwe_payload, jwe_iv. cbn. rewrite !b64_decode_encode. cbn [unwrap]. auto.
  - destruct (dh_from (m_did m)) as [f|]; [|destruct HF as [HF|HF]; now elim HF]. split; [reflexivity|]. unfold jwe_payload, jwe_iv. cbn. rewrite !b64_decode_encode. cbn [unwrap]. auto.
Qed.
Lemma external_refused : forall E R rnd m c, sendable E m -> dh_from (m_did m) = None -> jh_skid (m_jwm m) = None -> exists text,
  seal_pre_encrypted rnd m c = Ok text /\ received_as_jwe R text = None.
Proof.
  intros E R rnd m c HS HF HK. destruct (external_round E R rnd m c HS) as [text [u [H1 [H2 [H3 _]]]]]. exists text. split; [exact H1|].
  unfold received_as_jwe. rewrite H3. unfold jwe_get, fallback, re_jwe, jwe_new. cbn. now rewrite H2, HF, HK.
Qed.

(** ** Mediated::shape *)

Lemma shape_fails : forall m, mediated_shape m = Err ESerde.
Proof. intros m. unfold mediated_shape. rewrite parse_print by (cbn; reflexivity). reflexivity. Qed.

(** ** Unprotected headers *)

Definition with_unprotected (e : jwe) (u : option jwm_header) : jwe :=
  {| je_protected := je_protected e; je_unprotected := u; je_recipient := je_recipient e; je_recipients := je_recipients e;
     je_ciphertext := je_ciphertext e; je_iv := je_iv e; je_tag := je_tag e |}.
Lemma unprotected_ignored : forall E e u h alg skid, good_jwe e -> opt_all good_header u -> je_protected e = Some h -> jh_alg h = Some alg -> jh_skid h = Some skid ->
  forall sk spk gpk, receive E (jwe_json (with_unprotected e u)) sk spk gpk = receive E (jwe_json e) sk spk gpk.
Proof.
  intros E e u h alg skid HG HU HP HA HS sk spk gpk.
  assert (HG' : good_jwe (with_unprotected e u)) by (destruct HG as [G1 [G2 G3]]; split; [exact G1|]; split; [exact HU|exact G3]).
  assert (HJ : forall k, receive_jwe E (jwe_json (with_unprotected e u)) k spk = receive_jwe E (jwe_json e) k spk).
  { intros k. unfold receive_jwe. destruct (jwe_round (rt E 1) _ HG) as [_ ->]. destruct (jwe_round (rt E 1) _ HG') as [_ ->]. cbn [oerr rbind].
    assert (GA : forall w, jwe_get (re_jwe (rt E 1) (with_unprotected e w)) jh_alg = Some alg) by (intros w; unfold jwe_get, fallback; cbn; rewrite HP; cbn; now rewrite HA).
    assert (GS : forall w, jwe_get (re_jwe (rt E 1) (with_unprotected e w)) jh_skid = Some skid) by (intros w; unfold jwe_get, fallback; cbn; rewrite HP; cbn; now rewrite HS).
    assert (HE : e = with_unprotected e (je_unprotected e)) by (now destruct e).
    assert (GA0 : jwe_get (re_jwe (rt E 1) e) jh_alg = Some alg) by (rewrite HE; apply GA).
    assert (GS0 : jwe_get (re_jwe (rt E 1) e) jh_skid = Some skid) by (rewrite HE; apply GS).
    rewrite GA, GS, GA0, GS0. cbn [oerr rbind].
    match goal with |- rbind ?y _ = rbind ?y _ => destruct y as [pk| |]; [|cbn [rbind]; reflexivity|cbn [rbind]; reflexivity] end. cbn [rbind].
    destruct (arr32 k) as [k0| |]; [|cbn [rbind]; reflexivity|cbn [rbind]; reflexivity]. cbn [rbind]. destruct (arr32 pk) as [p| |]; [|cbn [rbind]; reflexivity|cbn [rbind]; reflexivity]. cbn [rbind].
    destruct (crypto_alg_of alg) as [a| |]; [|cbn [rbind]; reflexivity|cbn [rbind]; reflexivity]. cbn [rbind].
    assert (HD : forall key, decrypt (rt E 2) (rt E 3) (jwe_json (with_unprotected e u)) (decrypter E a) key = decrypt (rt E 2) (rt E 3) (jwe_json e) (decrypter E a) key).
    { intros key. unfold decrypt. destruct (jwe_round (rt E 2) _ HG) as [-> _]. destruct (jwe_round (rt E 2) _ HG') as [-> _]. reflexivity. }
    change (jwe_recipients (re_jwe (rt E 1) (with_unprotected e u))) with (jwe_recipients (re_jwe (rt E 1) e)).
    destruct (jwe_recipients (re_jwe (rt E 1) e)) as [l|].
    - rewrite (find_cek_ext E (re_jwe (rt E 1) (with_unprotected e u)) (re_jwe (rt E 1) e)) by congruence.
      destruct (cek_error _) as [key| |]; [|cbn [rbind]; reflexivity|cbn [rbind]; reflexivity]. cbn [rbind]. now rewrite HD.
    - now rewrite HD. }
  unfold receive. rewrite !classify_jwe. cbn [rbind is_jwe_type]. destruct sk as [k|]; cbn [oerr rbind]; [|reflexivity]. now rewrite HJ.
Qed.

(** ** Panics *)

Lemma receive_panic : forall E text sk spk gpk, get_message_type (rt E 0) text = Ok DidCommJwe -> receive_jwe E text sk spk = Panic -> receive E text (Some sk) spk gpk = Panic.
Proof. intros E text sk spk gpk HT HR. unfold receive. rewrite HT. cbn [rbind is_jwe_type oerr]. now rewrite HR. Qed.
Lemma seal_short_key : forall E rnd m sk keys text rsk spk key from gpk, sendable E m -> dh_from (m_did m) = Some from -> seal E rnd m sk keys = Ok text ->
  known_key E from spk key -> String.length rsk < 32 \/ String.length key < 32 -> receive E text (Some rsk) spk gpk = Panic.
Proof.
  intros E rnd m sk keys text rsk spk key from gpk HS HF HT HK HL. apply receive_panic; [eapply seal_classify; exact HT|]. apply seal_text in HT.
  destruct HT as [a [rs [sh [c [H1 [H2 [H3 [H4 [H5 [_ [H6 [H7 [H8 ->]]]]]]]]]]]]]. 
  pose proof (sealed_env_good (seal_header m) sh rs (take (String.length c - 16) c) (drop (String.length c - 16) c) (sr_iv rnd) (seal_header_good E m HS) H5 H6) as HG.
  unfold receive_jwe. destruct (jwe_round (rt E 1) _ HG) as [_ ->]. cbn [oerr rbind]. rewrite re_sealed_env.
  rewrite (jwe_get_env _ _ _ _ _ jh_alg (wrap_name a)) by (cbn [re_jwm jh_alg]; now rewrite seal_header_alg). cbn [oerr rbind].
  rewrite (sender_key E _ spk from key); [|apply jwe_get_env; exact HF|exact HK]. cbn [rbind]. unfold arr32.
  destruct (Nat.ltb_spec (String.length rsk) 32); [reflexivity|]. cbn [rbind]. destruct (Nat.ltb_spec (String.length key) 32); [reflexivity|lia].
Qed.
(** The entry wraps a key of the wrong length. *)
Lemma seal_wrong_cek : forall E text sk spk e skid key pre r post alg a h c tag tg iv cek, jwe_from_str (rt E 1) text = Some e -> jwe_get e jh_alg = Some alg -> In (alg, a) wrap_table ->
  jwe_get e jh_skid = Some skid -> known_key E skid spk key -> 32 <= String.length sk -> 32 <= String.length key ->
  jwe_recipients e = Some (pre ++ r :: post)%list -> Forall (fun x => exists err, decrypt_cek E e sk x spk = Err err) pre -> decrypt_cek E e sk r spk = Ok cek ->
  String.length cek <> 32 -> forall e2, jwe_from_slice (rt E 2) text = Some e2 -> je_protected e2 = Some h -> je_tag e2 = Some tag -> b64_decode tag = Some tg ->
  b64_decode (je_ciphertext e2) = Some c -> b64_decode (je_iv e2) = Some iv -> nonce_len a <= String.length iv ->
  receive_jwe E text sk spk = Panic.
Proof.
  intros E text sk spk e skid key pre r post alg a h c tag tg iv cek HJ HA HI HS HK L1 L2 HR HP HD HC e2 HJ2 HP2 HT2 HB1 HB2 HB3 HN.
  unfold receive_jwe. rewrite HJ. cbn [oerr rbind]. rewrite HA. cbn [oerr rbind].
  rewrite (sender_key E e spk skid key HS HK). cbn [rbind]. rewrite !arr32_ok by assumption. cbn [rbind]. pose proof HI as HI'. apply crypto_alg_of_table in HI. rewrite HI. cbn [rbind].
  rewrite HR, find_cek_skip by (try exact HP; rewrite HD; discriminate). rewrite HD. cbn [cek_error rbind].
  unfold decrypt. rewrite HJ2. cbn [oerr rbind]. rewrite HP2, HT2. cbn [oerr rbind]. unfold jwe_payload, jwe_iv. rewrite HB2, HB3, HB1. cbn [unwrap oerr rbind].
  unfold decrypter, check_nonce, exact_len. destruct HI' as [HI'|[HI'|[]]]; injection HI' as <- <-; cbn [nonce_len] in HN.
  - destruct (Nat.ltb_spec (String.length iv) 12); [lia|]. cbn [rbind]. destruct (Nat.eqb_spec (String.length cek) 32); [contradiction|reflexivity].
  - destruct (Nat.ltb_spec (String.length iv) 24); [lia|]. cbn [rbind]. destruct (Nat.eqb_spec (String.length cek) 32); [contradiction|reflexivity].
Qed.
(** An envelope without entries, made of arbitrary texts. *)
Definition crafted (ct iv tag : string) : jwe :=
  {| je_protected := Some (jh_with_alg (jh_with_typ jwm_default DidCommJwe) (Some "ECDH-1PU+XC20PKW")); je_unprotected := None; je_recipient := None; je_recipients := None;
     je_ciphertext := ct; je_iv := iv; je_tag := Some tag |}.
Lemma crafted_panics : forall E sk pk gpk ct iv tag, 32 <= String.length sk -> 32 <= String.length pk -> rust_string ct -> rust_string iv -> rust_string tag ->
  b64_decode ct = None \/
  (b64_decode ct <> None /\ b64_decode tag <> None /\
   (b64_decode iv = None \/ exists v, b64_decode iv = Some v /\ 24 < String.length v /\ String.length (x_dh E (take 32 sk) (take 32 pk)) = 32)) ->
  receive E (jwe_json (crafted ct iv tag)) (Some sk) (Some pk) gpk = Panic.
Proof.
  intros E sk pk gpk ct iv tag L1 L2 U1 U2 U3 HB. apply receive_panic; [apply classify_jwe|].
  assert (HG : good_jwe (crafted ct iv tag)).
  { unfold good_jwe, crafted. cbn [je_protected je_unprotected je_recipient je_recipients je_ciphertext je_iv je_tag opt_all]. split; [|repeat (split; [first [exact I|assumption]|]); exact U3].
    apply good_alg; [reflexivity|]. apply good_typ. exact default_good. }
  pose proof (proj2 (jwe_round (rt E 1) _ HG)) as J1. pose proof (proj1 (jwe_round (rt E 2) _ HG)) as J2. revert J1 J2. generalize (jwe_json (crafted ct iv tag)). intros text J1 J2.
  unfold receive_jwe. rewrite J1. cbn [oerr rbind]. unfold jwe_get, fallback, crafted, re_jwe. cbn [je_protected option_map re_jwm jh_with_alg jh_alg oerr rbind].
  rewrite !arr32_ok by assumption. cbn [rbind]. change (crypto_alg_of "ECDH-1PU+XC20PKW") with (Ok XC20P). cbn [rbind]. unfold jwe_recipients. cbn [je_recipients je_recipient option_map].
  unfold decrypt. rewrite J2. cbn [oerr rbind]. unfold re_jwe. cbn [crafted je_protected je_tag option_map oerr rbind]. unfold jwe_payload, jwe_iv. cbn [crafted je_ciphertext je_iv].
  destruct (b64_decode ct) as [c|]; [|reflexivity]. cbn [unwrap rbind]. destruct HB as [HB|[_ [HT HB]]]; [discriminate|]. destruct (b64_decode tag) as [tg|]; [|now elim HT]. cbn [oerr rbind].
  destruct HB as [->|[v [-> [HV LD]]]]; [reflexivity|]. cbn [unwrap rbind]. unfold decrypter, check_nonce, exact_len. destruct (Nat.ltb_spec (String.length v) 24); [lia|]. cbn [rbind].
  rewrite LD. cbn [Nat.eqb rbind]. destruct (Nat.eqb_spec (String.length v) 24); [lia|reflexivity].
Qed.

(** ** Lengths in sealed envelopes *)

Lemma wrap_name_inj : forall a b, usable a -> usable b -> wrap_name a = wrap_name b -> a = b.
Proof. intros [] [] HA HB H; try reflexivity; try discriminate; solve [now elim HA|now elim HB]. Qed.
Lemma wrap_table_name : forall alg a, In (alg, a) wrap_table -> usable a /\ alg = wrap_name a.
Proof. intros alg a H. apply crypto_alg_of_ok. now apply crypto_alg_of_table. Qed.
Lemma wrap_length : forall E a k n d p c, crypto_ok E -> dec_length (xc_dec E) -> dec_length (gcm_dec E) -> wrap_enc E a k n d p = Some c -> String.length c = String.length p + 16.
Proof. intros E a k n d p c HC DX DG H. apply wrap_correct in H; [|exact HC]. destruct a; cbn [wrap_dec] in H; [eapply DX; exact H|eapply DG; exact H|discriminate]. Qed.
Lemma entry_lengths_of : forall E R rr dest a c, drt_ok R -> String.length (rr_iv rr (wrap_len a)) = wrap_len a -> String.length c = 48 ->
  entry_lengths a (re_recipient R (cek_recipient E rr dest (wrap_ka a) (rr_iv rr (wrap_len a)) (take (String.length c - 16) c) (drop (String.length c - 16) c))).
Proof.
  intros E R rr dest a c HR HI HC. assert (HN : wrap_len a = nonce_len a) by (destruct a; reflexivity).
  destruct (cek_members R E rr dest (wrap_ka a) (rr_iv rr (wrap_len a)) (take (String.length c - 16) c) (drop (String.length c - 16) c) HR) as [M1 M2]. split.
  - intros t iv HM HB. rewrite M1 in HM. apply some_inj in HM. subst t. rewrite b64_decode_encode in HB. apply some_inj in HB. subst iv. now rewrite <- HN.
  - intros t tag sealed HM HB HB2. rewrite M2 in HM. apply some_inj in HM. subst t. rewrite b64_decode_encode in HB. apply some_inj in HB. subst tag.
    cbn [rc_encrypted_key re_recipient cek_recipient] in HB2. rewrite b64_decode_encode in HB2. apply some_inj in HB2. subst sealed.
    rewrite take_length, drop_length, HC by lia. reflexivity.
Qed.
Lemma seal_lengths : forall E rnd m sk keys text k e, env_ok E -> crypto_ok E -> dec_length (xc_dec E) -> dec_length (gcm_dec E) -> rand_ok rnd -> sendable E m ->
  seal E rnd m sk keys = Ok text -> jwe_from_str (rt E k) text = Some e -> envelope_lengths e.
Proof.
  intros E rnd m sk keys text k e HEn HC DX DG HR HS HT HJ. apply seal_text in HT. destruct HT as [a [rs [sh [c [H1 [H2 [H3 [H4 [H5 [_ [H6 [H7 [H8 ->]]]]]]]]]]]]].
  pose proof (sealed_env_good (seal_header m) sh rs (take (String.length c - 16) c) (drop (String.length c - 16) c) (sr_iv rnd) (seal_header_good E m HS) H5 H6) as HG.
  destruct (jwe_round (rt E k) _ HG) as [_ HJ']. rewrite HJ' in HJ. apply some_inj in HJ. subst e. split; [|split].
  - exists (take (String.length c - 16) c). apply b64_decode_encode.
  - exists (sr_iv rnd). split; [apply b64_decode_encode|]. destruct HR as [_ _ HR]. rewrite HR. lia.
  - intros alg a' l r HA HI HL HIn. rewrite re_sealed_env in HA. rewrite (jwe_get_env _ _ _ _ _ jh_alg (wrap_name a)) in HA by (cbn [re_jwm jh_alg]; now rewrite seal_header_alg).
    apply some_inj in HA. subst alg. apply wrap_table_name in HI. destruct HI as [HI1 HI2]. apply wrap_name_inj in HI2; [|exact H1|exact HI1]. subst a'.
    rewrite (placed_recipients _ rs) in HL by exact H5. apply some_inj in HL. subst l. apply in_map_iff in HIn. destruct HIn as [r0 [<- HIn]].
    apply In_nth_error in HIn. destruct HIn as [i HIn]. assert (HD : exists dest, nth_error (dh_to (m_did m)) i = Some dest).
    { destruct (nth_error (dh_to (m_did m)) i) as [d|] eqn:EN; [now exists d|]. apply nth_error_None in EN. assert (i < List.length rs) by (apply nth_error_Some; congruence). lia. }
    destruct HD as [dest HD]. destruct (H4 i dest HD) as [r1 [HN HE]]. rewrite HIn in HN. apply some_inj in HN. subst r1.
    apply encrypt_cek_ok in HE. destruct HE as [b [key [c' [U1 [U2 [_ [_ [_ [_ [U3 [U4 [U5 ->]]]]]]]]]]]].
    rewrite H2 in U2. apply some_inj in U2. apply wrap_name_inj in U2; [|exact H1|exact U1]. subst b.
    apply entry_lengths_of; [now apply env_drt|exact U3|]. rewrite (wrap_length _ _ _ _ _ _ _ HC DX DG U4). reflexivity.
Qed.
