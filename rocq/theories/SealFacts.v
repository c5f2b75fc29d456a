(** Facts about encrypted envelopes: key wrapping, content encryption, seal and receive. *)

From Coq Require Import Ascii String Arith NArith List Bool Permutation Sorted Lia.
From Verif Require Import Bytes BytesFacts Base64 Base64Facts Utf8 Utf8Facts Json JsonFacts Value ValueFacts Types Serde SerdeFacts
  Message Attach Regex ChaCha Sha256 Envelope Spec SpecFacts DecodeFacts PlainFacts CodecFacts SetterFacts SpecText RegexFacts
  CryptoLaws SpecSign HeaderFacts SpecSeal.
Import ListNotations.
Local Open Scope string_scope.

(** ** Small things *)

Lemma split_tag_ok : forall c p, split_tag c = Ok p -> fst p ++ snd p = c /\ String.length (snd p) = 16.
Proof.
  intros c p H. unfold split_tag in H. destruct (Nat.ltb_spec (String.length c) 16); [discriminate|]. apply ok_inj in H. subst p. cbn [fst snd].
  split; [apply take_drop|]. rewrite drop_length. lia.
Qed.
Lemma split_tag_long : forall c, 16 <= String.length c ->
  split_tag c = Ok (take (String.length c - 16) c, drop (String.length c - 16) c).
Proof. intros c H. unfold split_tag. destruct (Nat.ltb_spec (String.length c) 16); [lia|reflexivity]. Qed.
Lemma arr32_ok : forall s, 32 <= String.length s -> arr32 s = Ok (take 32 s).
Proof. intros s H. unfold arr32. destruct (Nat.ltb_spec (String.length s) 32); [lia|reflexivity]. Qed.
Lemma arr32_inv : forall s x, arr32 s = Ok x -> 32 <= String.length s /\ x = take 32 s.
Proof. intros s x H. unfold arr32 in H. destruct (Nat.ltb_spec (String.length s) 32); [discriminate|]. apply ok_inj in H. now split. Qed.
Lemma exact_len_ok : forall n s, String.length s = n -> exact_len n s = Ok s.
Proof. intros n s H. unfold exact_len. now rewrite H, Nat.eqb_refl. Qed.
Lemma exact_len_inv : forall n s x, exact_len n s = Ok x -> String.length s = n /\ x = s.
Proof. intros n s x H. unfold exact_len in H. destruct (Nat.eqb_spec (String.length s) n); [|discriminate]. apply ok_inj in H. now split. Qed.
Lemma take32 : forall s, String.length s = 32 -> take 32 s = s.
Proof. intros s H. apply take_all. lia. Qed.

Lemma did_chars_ascii : forall c, lower_letter c \/ did_char c -> is_ascii c = true.
Proof.
  intros c H. unfold is_ascii. apply N.ltb_lt. unfold lower_letter, did_char, letter, digit, between in H.
  change (N_of_ascii "a") with 97%N in H. change (N_of_ascii "z") with 122%N in H. change (N_of_ascii "A") with 65%N in H.
  change (N_of_ascii "Z") with 90%N in H. change (N_of_ascii "0") with 48%N in H. change (N_of_ascii "9") with 57%N in H.
  unfold code.
  destruct H as [H|[[H|H]|[H|[->|[->|[->| ->]]]]]]; try lia; reflexivity.
Qed.
Lemma all_chars_sall : forall (P : ascii -> Prop) f s, (forall c, P c -> f c = true) -> all_chars P s -> sall f s = true.
Proof.
  intros P f s HF. induction s as [|c s IH]; intros H; [reflexivity|]. cbn [sall]. rewrite HF by (apply H; now left).
  apply IH. intros x Hx. apply H. now right.
Qed.
Lemma did_ascii : forall d, did d -> sall is_ascii d = true.
Proof.
  intros d [m [segs [i [_ [HM [HS [_ [HI ->]]]]]]]].
  assert (HC : sall is_ascii (String.concat "" (map (fun x => x ++ ":") segs)) = true).
  { clear HI. induction segs as [|u segs IH]; [reflexivity|].
    assert (HC : String.concat "" (map (fun x => x ++ ":") (u :: segs)) = (u ++ ":") ++ String.concat "" (map (fun x => x ++ ":") segs)).
    { cbn [map String.concat]. destruct segs as [|g segs]; [cbn; now rewrite sapp_nil_r|reflexivity]. }
    rewrite HC, !sall_app, IH; [|intros x Hx; apply HS; now right]. rewrite (all_chars_sall lower_letter); [reflexivity| |apply HS; now left].
    intros c Hc. apply did_chars_ascii. now left. }
  rewrite !sall_app, HC, (all_chars_sall lower_letter is_ascii m), (all_chars_sall did_char is_ascii i); try assumption; try reflexivity;
    intros c Hc; apply did_chars_ascii; tauto.
Qed.
Lemma did_of_url_labelled : forall s, labelled s (did_of_url s).
Proof.
  intros s. destruct (did_url_dec s) as [[d H]|H].
  - left. now rewrite (did_of_url_some s d H).
  - right. split; [now apply did_of_url_none|exact H].
Qed.
Lemma did_of_url_utf8 : forall s, rust_string (did_of_url s).
Proof.
  intros s. apply utf8_ascii. destruct (did_of_url_labelled s) as [H|[H _]].
  - apply did_ascii. apply H.
  - rewrite H. reflexivity.
Qed.

(** ** Key agreement *)

Lemma shared_for_ok : forall E sk did pk x, shared_for E sk did pk = Ok x <->
  exists key, known_key E did pk key /\ 32 <= String.length sk /\ 32 <= String.length key /\ x = x_dh E (take 32 sk) (take 32 key).
Proof.
  intros E sk did pk x. unfold shared_for. split.
  - intros H. rbinv H. apply arr32_inv in E1, E2. destruct E1 as [H1 ->]. destruct E2 as [H2 ->]. apply ok_inj in H. subst x.
    exists v. split; [|auto]. destruct pk as [k|].
    + apply ok_inj in E0. subst k. now left.
    + destruct (resolve E did) as [doc|] eqn:ER; [|discriminate E0]. cbn [oerr rbind] in E0. apply oerr_ok in E0. right. split; [reflexivity|].
      exists doc. split; assumption.
  - intros [key [HK [H1 [H2 ->]]]].
    assert (HP : match pk with Some k => Ok k | None => let? doc := oerr (resolve E did) EDidResolveFailed in oerr (doc_key doc "X25519") EDidResolveFailed end = Ok key).
    { destruct HK as [->|[-> [doc [-> HD]]]]; [reflexivity|]. cbn [oerr rbind]. now rewrite HD. }
    rewrite HP. cbn [rbind]. rewrite !arr32_ok by assumption. reflexivity.
Qed.
Lemma known_key_fun : forall E did pk k k', known_key E did pk k -> known_key E did pk k' -> k = k'.
Proof. intros E did pk k k' [->|[-> [doc [H1 H2]]]] [H|[H [doc' [H1' H2']]]]; congruence. Qed.

(** The names and parameters of the two wrapping algorithms. *)
Definition wrap_name (a : crypto_algorithm) : string := match a with A256GCM => "ECDH-1PU+A256KW" | XC20P => "ECDH-1PU+XC20PKW" | A256CBC => "A256CBC" end.
Definition wrap_len (a : crypto_algorithm) : nat := match a with XC20P => 24 | _ => 12 end.
Definition wrap_ka (a : crypto_algorithm) : key_algorithm := match a with XC20P => Ecdh1puXc20pkw | _ => Ecdh1puA256kw end.
Definition wrap_enc (E : env) (a : crypto_algorithm) : string -> string -> string -> string -> option string :=
  match a with XC20P => xc_enc E | A256GCM => gcm_enc E | A256CBC => fun _ _ _ _ => None end.
Definition wrap_dec (E : env) (a : crypto_algorithm) : string -> string -> string -> string -> option string :=
  match a with XC20P => xc_dec E | A256GCM => gcm_dec E | A256CBC => fun _ _ _ _ => None end.
Definition usable (a : crypto_algorithm) : Prop := a <> A256CBC.
Lemma wrap_ka_name : forall a, usable a -> key_algorithm_name (wrap_ka a) = wrap_name a.
Proof. intros [] H; try reflexivity. congruence. Qed.
Lemma crypto_alg_of_ok : forall s a, crypto_alg_of s = Ok a <-> usable a /\ s = wrap_name a.
Proof.
  intros s a. unfold crypto_alg_of, usable. destruct (String.eqb_spec s "ECDH-1PU+A256KW") as [->|N1].
  - split; [intros H; apply ok_inj in H; subst a; now split|]. intros [H1 H2]. destruct a; [discriminate|reflexivity|congruence].
  - destruct (String.eqb_spec s "ECDH-1PU+XC20PKW") as [->|N2].
    + split; [intros H; apply ok_inj in H; subst a; now split|]. intros [H1 H2]. destruct a; [reflexivity|discriminate|congruence].
    + split; [discriminate|]. intros [H1 H2]. destruct a; cbn in H2; congruence.
Qed.
Lemma crypto_alg_of_table : forall s a, crypto_alg_of s = Ok a <-> In (s, a) wrap_table.
Proof.
  intros s a. rewrite crypto_alg_of_ok. split.
  - intros [H ->]. destruct a; cbn; try tauto. congruence.
  - intros [H|[H|[]]]; injection H as <- <-; split; try discriminate; reflexivity.
Qed.

(** The text hashed into a key encryption key. *)
Definition kek_text (secret alg : string) : string :=
  b4 0 0 0 1 ++ secret ++ ((be4 (N.of_nat (String.length alg)) ++ alg) ++ b4 0 0 0 0 ++ b4 0 0 0 0 ++ b4 0 0 1 0).
Lemma kdf_wrap : forall secret a, concat_kdf secret (wrap_name a) None None = Ok (sha256 (kek_text secret (wrap_name a))).
Proof. intros secret a. unfold concat_kdf, kdf_input, len_input. destruct a; reflexivity. Qed.
Definition kek_of (ze shared : string) (a : crypto_algorithm) : string := sha256 (kek_text (ze ++ shared) (wrap_name a)).
Lemma kek_of_length : forall ze sh a, String.length (kek_of ze sh a) = 32.
Proof. intros. apply sha256_length. Qed.
Lemma generate_kek_ok : forall E did sk ze a pk x, generate_kek E did sk ze (wrap_name a) pk = Ok x <->
  exists key, known_key E did pk key /\ 32 <= String.length sk /\ 32 <= String.length key /\ x = kek_of ze (x_dh E (take 32 sk) (take 32 key)) a.
Proof.
  intros E did sk ze a pk x. unfold generate_kek. split.
  - intros H. rbinv H. rewrite kdf_wrap in H. apply ok_inj in H. apply shared_for_ok in E0. destruct E0 as [key [H1 [H2 [H3 ->]]]]. exists key. auto.
  - intros [key [H1 [H2 [H3 ->]]]]. assert (HS : shared_for E sk did pk = Ok (x_dh E (take 32 sk) (take 32 key))) by (apply shared_for_ok; exists key; auto).
    rewrite HS. cbn [rbind]. apply kdf_wrap.
Qed.

(** ** One recipient entry *)

Lemma wrap_step : forall E a iv kek cek x,
  (let? k := exact_len 32 kek in let? n := exact_len (wrap_len a) iv in
   let? c := oerr (wrap_enc E a k n "" cek) (EGeneric "aead") in Ok (wrap_ka a, iv, c)) = Ok x ->
  String.length iv = wrap_len a /\ exists c, wrap_enc E a kek iv "" cek = Some c /\ x = (wrap_ka a, iv, c).
Proof.
  intros E a iv kek cek x H. rbinv H. apply exact_len_inv in E0, E1. destruct E0 as [_ ->]. destruct E1 as [H1 ->]. apply oerr_ok in E2. apply ok_inj in H.
  split; [exact H1|]. exists v1. auto.
Qed.
Lemma encrypt_cek_ok : forall E rr m sk dest cek pk r, encrypt_cek E rr m sk dest cek pk = Ok r ->
  exists a key c, usable a /\ jh_alg (m_jwm m) = Some (wrap_name a) /\ known_key E dest pk key /\
    32 <= String.length key /\ 32 <= String.length sk /\ 32 <= String.length (rr_esk rr) /\ String.length (rr_iv rr (wrap_len a)) = wrap_len a /\
    wrap_enc E a (kek_of (x_dh E (take 32 (rr_esk rr)) (take 32 key)) (x_dh E (take 32 sk) (take 32 key)) a) (rr_iv rr (wrap_len a)) "" cek = Some c /\
    16 <= String.length c /\
    r = cek_recipient E rr dest (wrap_ka a) (rr_iv rr (wrap_len a)) (take (String.length c - 16) c) (drop (String.length c - 16) c).
Proof.
  intros E rr m sk dest cek pk r H. unfold encrypt_cek in H.
  destruct (jh_alg (m_jwm m)) as [alg|] eqn:EA; [|discriminate]. cbn [oerr rbind] in H.
  destruct (shared_for E (rr_esk rr) dest pk) as [ze| |] eqn:ES; try discriminate. cbn [rbind] in H.
  destruct (generate_kek E dest sk ze alg pk) as [kek| |] eqn:EK; try discriminate. cbn [rbind] in H.
  apply shared_for_ok in ES. destruct ES as [key [K1 [K2 [K3 ->]]]].
  assert (HC : exists a c, usable a /\ alg = wrap_name a /\ String.length (rr_iv rr (wrap_len a)) = wrap_len a /\
            wrap_enc E a kek (rr_iv rr (wrap_len a)) "" cek = Some c /\
            (let? p := split_tag c in Ok (cek_recipient E rr dest (wrap_ka a) (rr_iv rr (wrap_len a)) (fst p) (snd p))) = Ok r).
  { destruct (String.eqb_spec alg "ECDH-1PU+A256KW") as [->|N1]; [|destruct (String.eqb_spec alg "ECDH-1PU+XC20PKW") as [->|N2]; [|discriminate]].
    - match type of H with rbind ?y _ = _ => destruct y as [x| |] eqn:EX end; try discriminate. cbn [rbind] in H. apply (wrap_step E A256GCM) in EX.
      destruct EX as [H1 [c [H2 ->]]]. exists A256GCM, c. repeat split; auto; discriminate.
    - match type of H with rbind ?y _ = _ => destruct y as [x| |] eqn:EX end; try discriminate. cbn [rbind] in H. apply (wrap_step E XC20P) in EX.
      destruct EX as [H1 [c [H2 ->]]]. exists XC20P, c. repeat split; auto; discriminate. }
  destruct HC as [a [c [HU [-> [HL [HW HR]]]]]]. apply generate_kek_ok in EK. destruct EK as [key' [K1' [K2' [K3' ->]]]].
  rewrite <- (known_key_fun _ _ _ _ _ K1 K1') in *. exists a, key, c.
  destruct (split_tag c) as [p| |] eqn:EP; try discriminate. cbn [rbind] in HR. apply ok_inj in HR. subst r.
  unfold split_tag in EP. destruct (Nat.ltb_spec (String.length c) 16); [discriminate|]. apply ok_inj in EP. subst p. cbn [fst snd].
  repeat split; auto.
Qed.
Lemma encrypt_cek_total : forall E rr m sk dest cek pk a key c, usable a -> jh_alg (m_jwm m) = Some (wrap_name a) -> known_key E dest pk key ->
    32 <= String.length key -> 32 <= String.length sk -> 32 <= String.length (rr_esk rr) -> String.length (rr_iv rr (wrap_len a)) = wrap_len a ->
    wrap_enc E a (kek_of (x_dh E (take 32 (rr_esk rr)) (take 32 key)) (x_dh E (take 32 sk) (take 32 key)) a) (rr_iv rr (wrap_len a)) "" cek = Some c ->
    16 <= String.length c ->
    encrypt_cek E rr m sk dest cek pk =
      Ok (cek_recipient E rr dest (wrap_ka a) (rr_iv rr (wrap_len a)) (take (String.length c - 16) c) (drop (String.length c - 16) c)).
Proof.
  intros E rr m sk dest cek pk a key c HU HA HK L1 L2 L3 L4 HW HL. unfold encrypt_cek. rewrite HA. cbn [oerr rbind].
  assert (HS : shared_for E (rr_esk rr) dest pk = Ok (x_dh E (take 32 (rr_esk rr)) (take 32 key))) by (apply shared_for_ok; exists key; auto).
  rewrite HS. cbn [rbind].
  assert (HG : generate_kek E dest sk (x_dh E (take 32 (rr_esk rr)) (take 32 key)) (wrap_name a) pk =
    Ok (kek_of (x_dh E (take 32 (rr_esk rr)) (take 32 key)) (x_dh E (take 32 sk) (take 32 key)) a)) by (apply generate_kek_ok; exists key; auto).
  rewrite HG. cbn [rbind]. destruct a; [| |congruence].
  - change (String.eqb (wrap_name XC20P) "ECDH-1PU+A256KW") with false. change (String.eqb (wrap_name XC20P) "ECDH-1PU+XC20PKW") with true. cbv iota.
    rewrite exact_len_ok by apply kek_of_length. cbn [rbind]. cbn [wrap_len] in L4. rewrite exact_len_ok by exact L4. cbn [rbind]. cbn [wrap_enc wrap_len] in HW. rewrite HW.
    cbn [oerr rbind snd fst]. rewrite split_tag_long by exact HL. reflexivity.
  - change (String.eqb (wrap_name A256GCM) "ECDH-1PU+A256KW") with true. cbv iota.
    rewrite exact_len_ok by apply kek_of_length. cbn [rbind]. cbn [wrap_len] in L4. rewrite exact_len_ok by exact L4. cbn [rbind]. cbn [wrap_enc wrap_len] in HW. rewrite HW.
    cbn [oerr rbind snd fst]. rewrite split_tag_long by exact HL. reflexivity.
Qed.

(** The custom members of an entry, whatever their order. *)
Lemma cek_members : forall R E rr dest ka iv sealed tag, drt_ok R ->
  map_get "iv" (jk_other (rc_header (re_recipient R (cek_recipient E rr dest ka iv sealed tag)))) = Some (b64_encode iv) /\
  map_get "tag" (jk_other (rc_header (re_recipient R (cek_recipient E rr dest ka iv sealed tag)))) = Some (b64_encode tag).
Proof.
  intros R E rr dest ka iv sealed tag [_ HR]. cbn [re_recipient re_jwk rc_header cek_recipient jk_other].
  set (o := if rr_swap rr then _ else _).
  assert (HO : Permutation [("iv", b64_encode iv); ("tag", b64_encode tag)] o).
  { unfold o. change (map_insert "tag" (b64_encode tag) (map_insert "iv" (b64_encode iv) [])) with [("iv", b64_encode iv); ("tag", b64_encode tag)].
    destruct (rr_swap rr); [apply Permutation_rev|apply Permutation_refl]. }
  assert (HP : Permutation [("iv", b64_encode iv); ("tag", b64_encode tag)] (hord R _ o)) by (eapply Permutation_trans; [exact HO|apply Permutation_sym, HR]).
  assert (HN : NoDup (keys [("iv", b64_encode iv); ("tag", b64_encode tag)])).
  { cbn. constructor; [intros [H|[]]; discriminate|]. constructor; [intros []|constructor]. }
  split; rewrite <- (map_get_perm _ _ _ HN HP); reflexivity.
Qed.
Lemma cek_recipient_good : forall E rr dest ka iv sealed tag,
  Forall rust_string (recipient_strings (cek_recipient E rr dest ka iv sealed tag)) /\
  rust_jwk (rc_header (cek_recipient E rr dest ka iv sealed tag)) /\ jwk_plain (rc_header (cek_recipient E rr dest ka iv sealed tag)).
Proof.
  intros E rr dest ka iv sealed tag.
  assert (HB : forall s, rust_string (b64_encode s)) by (intros s; apply b64_utf8).
  split; [|split].
  - unfold recipient_strings, jwk_strings. cbn [cek_recipient rc_header rc_encrypted_key jk_kty jk_use jk_crv jk_kid jk_epk jk_other ostr oflat epk_strings ep_kty ep_crv ep_x ep_y app].
    constructor; [apply did_of_url_utf8|]. constructor; [reflexivity|]. constructor; [reflexivity|]. constructor; [apply HB|].
    apply Forall_app. split; [|constructor; [apply HB|constructor]].
    destruct (rr_swap rr); cbn; repeat (constructor; [first [reflexivity|apply HB]|]); constructor.
  - unfold rust_jwk, unique_keys. cbn [cek_recipient rc_header jk_other]. destruct (rr_swap rr); cbn;
      (constructor; [intros [H|[]]; discriminate|]); (constructor; [intros []|constructor]).
  - unfold jwk_plain, avoids. cbn [cek_recipient rc_header jk_other]. intros k. destruct (rr_swap rr); cbn; intros [<-|[<-|[]]] H;
      repeat (destruct H as [H|H]; [discriminate|]); exact H.
Qed.

(** Opening an entry made by [cek_recipient]. *)
Lemma decrypt_cek_entry : forall E R e sk rr dest a iv sealed tag pk skid key, drt_ok R -> usable a ->
  jwe_get e jh_alg = Some (wrap_name a) -> jwe_get e jh_skid = Some skid ->
  String.length (x_pub E (rr_esk rr)) = 32 -> 32 <= String.length sk -> known_key E skid pk key -> 32 <= String.length key ->
  String.length iv = wrap_len a ->
  decrypt_cek E e sk (re_recipient R (cek_recipient E rr dest (wrap_ka a) iv sealed tag)) pk =
  oerr (wrap_dec E a (kek_of (x_dh E (take 32 sk) (x_pub E (rr_esk rr))) (x_dh E (take 32 sk) (take 32 key)) a) iv "" (sealed ++ tag)) (EGeneric "aead").
Proof.
  intros E R e sk rr dest a iv sealed tag pk skid key HR HU HA HS HP HL HK HKL HI. unfold decrypt_cek. rewrite HA, HS. cbn [oerr rbind].
  destruct (cek_members R E rr dest (wrap_ka a) iv sealed tag HR) as [M1 M2]. rewrite M1, M2.
  cbn [re_recipient re_jwk cek_recipient rc_header jk_epk oerr rbind ep_x rc_encrypted_key]. rewrite b64_decode_encode. cbn [oerr rbind].
  rewrite HP. cbn [Nat.eqb negb]. rewrite arr32_ok by exact HL. cbn [rbind].
  assert (HG : generate_kek E skid sk (x_dh E (take 32 sk) (x_pub E (rr_esk rr))) (wrap_name a) pk =
    Ok (kek_of (x_dh E (take 32 sk) (x_pub E (rr_esk rr))) (x_dh E (take 32 sk) (take 32 key)) a)) by (apply generate_kek_ok; exists key; auto).
  rewrite HG. cbn [rbind]. rewrite !b64_decode_encode. cbn [oerr rbind]. destruct a; [| |congruence].
  - change (String.eqb (wrap_name XC20P) "ECDH-1PU+XC20PKW") with true. cbv iota. cbn [wrap_len] in HI. rewrite exact_len_ok by exact HI. cbn [rbind].
    rewrite exact_len_ok by apply kek_of_length. reflexivity.
  - change (String.eqb (wrap_name A256GCM) "ECDH-1PU+XC20PKW") with false. change (String.eqb (wrap_name A256GCM) "ECDH-1PU+A256KW") with true. cbv iota.
    cbn [wrap_len] in HI. rewrite exact_len_ok by exact HI. cbn [rbind]. rewrite exact_len_ok by apply kek_of_length. reflexivity.
Qed.
Lemma wrap_correct : forall E a k n ad p c, crypto_ok E -> wrap_enc E a k n ad p = Some c -> wrap_dec E a k n ad c = Some p.
Proof. intros E a k n ad p c [_ [H1 _] [H2 _]] H. destruct a; [apply H1; exact H|apply H2; exact H|discriminate]. Qed.
Lemma wrap_bound : forall E a k n ad p c k' n' ad' p', crypto_bound E -> wrap_enc E a k n ad p = Some c -> wrap_dec E a k' n' ad' c = Some p' -> p' = p.
Proof.
  intros E a k n ad p c k' n' ad' p' [H1 H2] H H'. destruct a; [|eapply H2; eassumption|discriminate]. eapply H1; eassumption.
Qed.
Lemma wrap_tag : forall E a k n ad p c, crypto_ok E -> wrap_enc E a k n ad p = Some c -> 16 <= String.length c.
Proof. intros E a k n ad p c [_ [_ H1] [_ H2]] H. destruct a; [eapply H1; exact H|eapply H2; exact H|discriminate]. Qed.

(** The intended recipient opens the entry. *)
Lemma cek_round : forall E R e m rr sk rsk dest cek pk spk r skid, crypto_ok E -> drt_ok R -> String.length sk = 32 -> String.length rsk = 32 ->
  String.length (rr_esk rr) = 32 -> encrypt_cek E rr m sk dest cek pk = Ok r -> known_key E dest pk (x_pub E rsk) ->
  jwe_get e jh_alg = jh_alg (m_jwm m) -> jwe_get e jh_skid = Some skid -> known_key E skid spk (x_pub E sk) ->
  decrypt_cek E e rsk (re_recipient R r) spk = Ok cek.
Proof.
  intros E R e m rr sk rsk dest cek pk spk r skid HC HR L1 L2 L3 HE HK HA HS HSK. pose proof HC as HC0. destruct HC as [[D1 D2] C1 C2].
  apply encrypt_cek_ok in HE. destruct HE as [a [key [c [HU [HA' [HK' [K1 [K2 [K3 [K4 [HW [HL ->]]]]]]]]]]]].
  rewrite (known_key_fun _ _ _ _ _ HK' HK) in *.
  rewrite (decrypt_cek_entry E R e rsk rr dest a _ _ _ spk skid (x_pub E sk)); auto; try congruence; try lia.
  - rewrite take_drop. rewrite (take32 (rr_esk rr)), (take32 sk), (take32 (x_pub E rsk)) in HW by auto. rewrite (take32 rsk), (take32 (x_pub E sk)) by auto. rewrite (D2 rsk (rr_esk rr)), (D2 rsk sk) by auto.
    rewrite (wrap_correct E a _ _ _ cek c); [reflexivity|exact HC0|exact HW].
  - rewrite D1; [lia|exact L1].
Qed.
(** The entries made for the recipients before the [i]-th are of no use to the holder of [rsk]: with the two keys that he
    computes for such an entry, the wrapped content key is refused, or the same content key comes out. *)
Definition others_closed (E : env) (rnd : seal_rand) (m : message) (sk : string) (keys : option (list (option string))) (rsk : string) (i : nat) : Prop :=
  forall j dest key a c p, j < i -> nth_error (dh_to (m_did m)) j = Some dest -> known_key E dest (given_key keys j) key ->
    jh_alg (m_jwm m) = Some (wrap_name a) ->
    let esk := rr_esk (sr_rec rnd j) in
    let iv := rr_iv (sr_rec rnd j) (wrap_len a) in
    wrap_enc E a (kek_of (x_dh E esk (take 32 key)) (x_dh E sk (take 32 key)) a) iv "" seal_cek = Some c ->
    wrap_dec E a (kek_of (x_dh E rsk (x_pub E esk)) (x_dh E rsk (x_pub E sk)) a) iv "" c = Some p -> p = seal_cek.
Lemma closed_first : forall E rnd m sk keys rsk, others_closed E rnd m sk keys rsk 0.
Proof. intros E rnd m sk keys rsk j dest key a c p H. now apply Nat.nlt_0_r in H. Qed.
Lemma closed_bound : forall E rnd m sk keys rsk i, crypto_bound E -> others_closed E rnd m sk keys rsk i.
Proof. intros E rnd m sk keys rsk i HB j dest key a c p _ _ _ _ esk iv H1 H2. exact (wrap_bound _ _ _ _ _ _ _ _ _ _ _ HB H1 H2). Qed.
(** Nobody else gets another key out of it. *)
Lemma cek_other : forall E R e m rr sk rsk dest cek pk spk r skid, crypto_ok E -> drt_ok R -> String.length sk = 32 -> String.length rsk = 32 ->
  (forall key a c p, known_key E dest pk key -> jh_alg (m_jwm m) = Some (wrap_name a) ->
     wrap_enc E a (kek_of (x_dh E (rr_esk rr) (take 32 key)) (x_dh E sk (take 32 key)) a) (rr_iv rr (wrap_len a)) "" cek = Some c ->
     wrap_dec E a (kek_of (x_dh E rsk (x_pub E (rr_esk rr))) (x_dh E rsk (x_pub E sk)) a) (rr_iv rr (wrap_len a)) "" c = Some p -> p = cek) ->
  String.length (rr_esk rr) = 32 -> encrypt_cek E rr m sk dest cek pk = Ok r ->
  jwe_get e jh_alg = jh_alg (m_jwm m) -> jwe_get e jh_skid = Some skid -> known_key E skid spk (x_pub E sk) ->
  decrypt_cek E e rsk (re_recipient R r) spk = Ok cek \/ decrypt_cek E e rsk (re_recipient R r) spk = Err (EGeneric "aead").
Proof.
  intros E R e m rr sk rsk dest cek pk spk r skid HC HR L1 L2 HB L3 HE HA HS HSK. assert (LP : String.length (x_pub E sk) = 32) by (apply HC; exact L1).
  apply encrypt_cek_ok in HE. destruct HE as [a [key' [c [HU [HA' [HK' [K1 [K2 [K3 [K4 [HW [HL ->]]]]]]]]]]]].
  rewrite (decrypt_cek_entry E R e rsk rr dest a _ _ _ spk skid (x_pub E sk)); auto; try congruence; try lia.
  - rewrite take_drop. destruct (wrap_dec _ _ _ _ _ _) as [p|] eqn:EP; [|now right]. left. cbn [oerr]. f_equal.
    rewrite (take32 (rr_esk rr)), (take32 sk) in HW by auto. rewrite (take32 rsk), (take32 (x_pub E sk)) in EP by auto. exact (HB _ _ _ _ HK' HA' HW EP).
  - apply HC. exact L3.
Qed.
