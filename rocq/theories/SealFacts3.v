(** Encrypted envelopes: when [seal] succeeds, what it refuses, what the envelope contains, and what [decrypt] accepts. *)

From Coq Require Import Ascii String Arith NArith List Bool Permutation Sorted Lia.
From Verif Require Import Bytes BytesFacts Base64 Base64Facts Utf8 Utf8Facts Json JsonFacts Value ValueFacts Types Serde SerdeFacts
  Message Attach Regex ChaCha Sha256 Envelope Spec SpecFacts DecodeFacts PlainFacts CodecFacts SetterFacts SpecText RegexFacts
  CryptoLaws SpecSign HeaderFacts SignFacts SignFacts2 SpecSeal SealFacts SealFacts2.
Import ListNotations.
Local Open Scope string_scope.

(** ** When seal succeeds *)

Lemma seal_cek_length : String.length seal_cek = 32.
Proof. vm_compute. reflexivity. Qed.
Lemma wrap_total : forall E a k n ad p, crypto_total E -> usable a -> String.length k = 32 -> String.length n = wrap_len a ->
  exists c, wrap_enc E a k n ad p = Some c.
Proof. intros E a k n ad p [T1 T2] HU HK HN. destruct a; [now apply T1|now apply T2|congruence]. Qed.
Lemma encryptor_total : forall E a iv k p ad, crypto_total E -> usable a -> String.length k = 32 -> String.length iv = 24 ->
  exists c, encryptor E a iv k p ad = Ok c.
Proof.
  intros E a iv k p ad [T1 T2] HU HK HN. unfold encryptor, check_nonce. destruct a; [| |congruence]; rewrite HN; cbn [Nat.ltb Nat.leb rbind].
  - rewrite !exact_len_ok by assumption. cbn [rbind]. destruct (T1 k iv ad p HK HN) as [c ->]. now exists c.
  - rewrite !exact_len_ok by assumption. cbn [rbind]. destruct (T2 k (take 12 iv) ad p HK) as [c ->]; [apply take_length; lia|]. now exists c.
Qed.
Lemma seal_total_gen : forall E rnd m sk keys a, crypto_ok E -> rand_ok rnd -> usable a ->
  (forall k n, String.length k = 32 -> String.length n = wrap_len a -> exists c, wrap_enc E a k n "" seal_cek = Some c) ->
  (forall rs, List.length rs = List.length (dh_to (m_did m)) ->
     (forall k dest, nth_error (dh_to (m_did m)) k = Some dest ->
        exists r, nth_error rs k = Some r /\ encrypt_cek E (sr_rec rnd k) m sk dest seal_cek (given_key keys k) = Ok r) ->
     exists c, encryptor E a (sr_iv rnd) seal_cek (message_json (with_recipients m (Some rs))) (header_b64 (seal_header m)) = Ok c) ->
  jh_alg (m_jwm m) = Some (wrap_name a) -> String.length sk = 32 -> dh_to (m_did m) <> [] ->
  (m_flat_jwe m = true -> List.length (dh_to (m_did m)) = 1) -> (forall l, keys = Some l -> List.length l = List.length (dh_to (m_did m))) ->
  (forall k dest, nth_error (dh_to (m_did m)) k = Some dest -> exists key, known_key E dest (given_key keys k) key /\ 32 <= String.length key) ->
  exists text, seal E rnd m sk keys = Ok text.
Proof.
  intros E rnd m sk keys a HC [A1 A2 A3] HU HWr HEn HA HL HTo HF HKL HK.
  unfold seal. rewrite HL. cbn [Nat.eqb negb]. set (to := dh_to (m_did m)) in *.
  assert (HP : exists pks, match keys with Some l => if negb (List.length l =? List.length to)%nat then Err (EGeneric "`to` and `recipient_public_keys` must have same length") else Ok l
                 | None => Ok (repeat None (List.length to)) end = Ok pks /\ List.length pks = List.length to /\ (forall k, nth k pks None = given_key keys k)).
  { destruct keys as [l|].
    - rewrite (HKL l eq_refl), Nat.eqb_refl. exists l. split; [reflexivity|]. split; [now apply HKL|reflexivity].
    - exists (repeat None (List.length to)). split; [reflexivity|]. split; [apply repeat_length|intros k; apply nth_repeat_none]. }
  destruct HP as [pks [-> [HPL HPN]]]. cbn [rbind].
  destruct (Nat.eqb_spec (List.length to) 0) as [H0|_]; [destruct to; [congruence|discriminate]|].
  assert (HFl : (m_flat_jwe m && (1 <? List.length to)%nat)%bool = false).
  { destruct (m_flat_jwe m); [|reflexivity]. rewrite HF by reflexivity. reflexivity. }
  rewrite HFl.
  destruct (seal_loop_total E (sr_rec rnd) m sk to pks 0 HPL) as [rs HRS].
  { intros k dest HN. cbn [Nat.add]. rewrite HPN. destruct (HK k dest HN) as [key [HKK HKLn]].
    destruct (HWr (kek_of (x_dh E (take 32 (rr_esk (sr_rec rnd k))) (take 32 key)) (x_dh E (take 32 sk) (take 32 key)) a)
                (rr_iv (sr_rec rnd k) (wrap_len a)) (kek_of_length _ _ _) (A2 _ _)) as [c HW].
    eexists. apply (encrypt_cek_total E (sr_rec rnd k) m sk dest seal_cek (given_key keys k) a key c); auto.
    - lia.
    - rewrite A1. lia.
    - eapply wrap_tag; eassumption. }
  rewrite HRS. cbn [rbind]. apply seal_loop_ok in HRS; [|exact HPL]. destruct HRS as [HRL HRN].
  unfold crypter_of. change (m_jwm (with_recipients m (Some rs))) with (m_jwm m). rewrite HA.
  assert (HCA : crypto_alg_of (wrap_name a) = Ok a) by (apply crypto_alg_of_ok; now split). rewrite HCA. cbn [rbind].
  destruct (HEn rs HRL) as [c HE].
  { intros k dest HN. destruct (HRN k dest HN) as [r [G1 G2]]. exists r. split; [exact G1|]. cbn [Nat.add] in G2. rewrite HPN in G2. exact G2. }
  destruct (cipher_round E a _ _ _ _ c HC HU HE) as [_ [H16 _]].
  assert (HSh : exists sh, if m_flat_jwe (with_recipients m (Some rs)) then exists r, m_recipients (with_recipients m (Some rs)) = Some [r] /\ sh = (Some r, None)
                else sh = (None, m_recipients (with_recipients m (Some rs)))).
  { cbn [with_recipients m_flat_jwe m_recipients]. destruct (m_flat_jwe m).
    - rewrite HF in HRL by reflexivity. destruct rs as [|r [|r' rs]]; try discriminate. exists (Some r, None). now exists r.
    - eexists. reflexivity. }
  destruct HSh as [sh HSh]. eexists. eapply encrypt_total; try eassumption. apply seal_header_eq.
Qed.
Lemma seal_total : forall E rnd m sk keys a, crypto_ok E -> crypto_total E -> rand_ok rnd -> usable a ->
  jh_alg (m_jwm m) = Some (wrap_name a) -> String.length sk = 32 -> dh_to (m_did m) <> [] ->
  (m_flat_jwe m = true -> List.length (dh_to (m_did m)) = 1) -> (forall l, keys = Some l -> List.length l = List.length (dh_to (m_did m))) ->
  (forall k dest, nth_error (dh_to (m_did m)) k = Some dest -> exists key, known_key E dest (given_key keys k) key /\ 32 <= String.length key) ->
  exists text, seal E rnd m sk keys = Ok text.
Proof.
  intros E rnd m sk keys a HC HT HR HU HA HL HTo HF HKL HK. apply (seal_total_gen E rnd m sk keys a); auto.
  - intros k n G1 G2. now apply wrap_total.
  - intros rs _ _. apply encryptor_total; [exact HT|exact HU|exact seal_cek_length|exact (ra_iv rnd HR)].
Qed.

(** ** Refused arguments *)

Lemma bad_argument_err : forall m sk keys err, bad_argument m sk keys err -> forall E rnd, seal E rnd m sk keys = Err err.
Proof.
  intros m sk keys err H E rnd. unfold seal. destruct H as [H|l H -> HL|H HK HT|H HK HF HT].
  - destruct (Nat.eqb_spec (String.length sk) 32); [congruence|]. reflexivity.
  - rewrite H. cbn [Nat.eqb negb]. destruct (Nat.eqb_spec (List.length l) (List.length (dh_to (m_did m)))); [congruence|]. reflexivity.
  - rewrite H, HT. cbn [Nat.eqb negb]. destruct HK as [->| ->]; reflexivity.
  - rewrite H. cbn [Nat.eqb negb].
    assert (HE : exists pks, match keys with Some l => if negb (List.length l =? List.length (dh_to (m_did m)))%nat then Err (EGeneric "`to` and `recipient_public_keys` must have same length") else Ok l
                 | None => Ok (repeat None (List.length (dh_to (m_did m)))) end = Ok pks).
    { destruct keys as [l|]; [|eexists; reflexivity]. rewrite (HK l eq_refl), Nat.eqb_refl. eexists. reflexivity. }
    destruct HE as [pks ->]. cbn [rbind]. destruct (Nat.eqb_spec (List.length (dh_to (m_did m))) 0); [lia|].
    rewrite HF. destruct (Nat.ltb_spec 1 (List.length (dh_to (m_did m)))); [reflexivity|lia].
Qed.
(** No later step fails with one of these errors. *)
Definition late {A} (x : res A) : Prop := forall e, x = Err e -> ~ In e argument_errors.
Lemma late_bind : forall A B (x : res A) (f : A -> res B), late x -> (forall a, x = Ok a -> late (f a)) -> late (rbind x f).
Proof. intros A B [a|e|] f H1 H2 e' H; cbn in H; [now apply (H2 a)|injection H as <-; now apply H1|discriminate]. Qed.
Lemma late_oerr : forall A (o : option A) e, ~ In e argument_errors -> late (oerr o e).
Proof. intros A [a|] e H e' HE; [discriminate|]. now injection HE as <-. Qed.
Lemma late_ok : forall A (a : A), late (Ok a).
Proof. intros A a e H. discriminate. Qed.
Lemma late_panic : forall A, late (@Panic A).
Proof. intros A e H. discriminate. Qed.
Lemma late_err : forall A e, ~ In e argument_errors -> late (@Err A e).
Proof. intros A e H e' HE. now injection HE as <-. Qed.
Ltac not_arg := let H := fresh in intros H; repeat (destruct H as [H|H]; [discriminate|]); exact H.
Ltac late_tac :=
  repeat first [ apply late_bind; [|intros ? ?] | apply late_ok | apply late_panic | apply late_oerr; not_arg | apply late_err; not_arg
               | match goal with |- late (if ?b then _ else _) => destruct b end
               | match goal with |- late (match ?o with _ => _ end) => destruct o end ].
Lemma late_shared : forall E sk did pk, late (shared_for E sk did pk).
Proof. intros E sk did pk. unfold shared_for, arr32. late_tac. Qed.
Lemma late_kdf : forall a b c d, late (concat_kdf a b c d).
Proof. intros a b c d. unfold concat_kdf, kdf_input, opt_input, len_input. late_tac. Qed.
Lemma late_cek : forall E rr m sk dest cek pk, late (encrypt_cek E rr m sk dest cek pk).
Proof.
  intros E rr m sk dest cek pk. unfold encrypt_cek. apply late_bind; [apply late_oerr; not_arg|intros alg _].
  apply late_bind; [apply late_shared|intros ze _]. unfold generate_kek. apply late_bind; [apply late_bind; [apply late_shared|intros; apply late_kdf]|intros kek _].
  unfold exact_len, split_tag. late_tac.
Qed.
Lemma late_loop : forall E rnd m sk ds ps i, late (seal_loop E rnd m sk i ds ps).
Proof.
  intros E rnd m sk. induction ds as [|d ds IH]; intros ps i; cbn [seal_loop]; [apply late_ok|]. destruct ps as [|p ps]; [apply late_ok|].
  apply late_bind; [apply late_cek|intros r _]. apply late_bind; [apply IH|intros rs _]. apply late_ok.
Qed.
Lemma late_encryptor : forall E a iv k p ad, late (encryptor E a iv k p ad).
Proof. intros E a iv k p ad. unfold encryptor, check_nonce, exact_len. late_tac. Qed.
Lemma late_encrypt : forall E a iv m cek, late (encrypt iv m (encryptor E a) cek).
Proof.
  intros E a iv m cek. unfold encrypt. apply late_bind; [unfold encrypt_header, first_to; late_tac|intros h _].
  apply late_bind; [apply late_oerr; not_arg|intros nonce _]. apply late_bind; [apply late_encryptor|intros c _]. unfold split_tag. late_tac.
Qed.
Lemma argument_error_bad : forall E rnd m sk keys err, In err argument_errors -> seal E rnd m sk keys = Err err -> bad_argument m sk keys err.
Proof.
  intros E rnd m sk keys err HI H. unfold seal in H. destruct (Nat.eqb_spec (String.length sk) 32) as [H1|H1]; cbn [negb] in H; [|injection H as <-; now constructor].
  assert (HK : (forall l, keys = Some l -> List.length l = List.length (dh_to (m_did m))) \/ exists l, keys = Some l /\ List.length l <> List.length (dh_to (m_did m))).
  { destruct keys as [l|]; [|left; discriminate]. destruct (Nat.eq_dec (List.length l) (List.length (dh_to (m_did m)))) as [HL|HL]; [left; intros l' G; now injection G as <-|right; eauto]. }
  destruct HK as [HK|[l [-> HL]]].
  - assert (HP : exists pks, match keys with Some l => if negb (List.length l =? List.length (dh_to (m_did m)))%nat then Err (EGeneric "`to` and `recipient_public_keys` must have same length") else Ok l
                 | None => Ok (repeat None (List.length (dh_to (m_did m)))) end = Ok pks).
    { destruct keys as [l|]; [|eexists; reflexivity]. rewrite (HK l eq_refl), Nat.eqb_refl. eexists. reflexivity. }
    destruct HP as [pks HP]. rewrite HP in H. cbn [rbind] in H. clear HP.
    destruct (Nat.eqb_spec (List.length (dh_to (m_did m))) 0) as [H2|H2].
    { injection H as <-. destruct (dh_to (m_did m)) eqn:ET; [|discriminate]. constructor 3; auto. destruct keys as [[|o l]|]; auto. specialize (HK _ eq_refl). discriminate. }
    destruct (m_flat_jwe m && (1 <? List.length (dh_to (m_did m)))%nat)%bool eqn:EF.
    { injection H as <-. apply andb_true_iff in EF. destruct EF as [EF1 EF2]. apply Nat.ltb_lt in EF2. constructor 4; auto. }
    exfalso. revert H. assert (HLate : late (let? rs := seal_loop E (sr_rec rnd) m sk 0 (dh_to (m_did m)) pks in
       let m0 := with_recipients m (Some rs) in let? a := crypter_of (m_jwm m0) in encrypt (sr_iv rnd) m0 (encryptor E a) seal_cek)).
    { apply late_bind; [apply late_loop|intros rs _]. cbv zeta. apply late_bind; [unfold crypter_of, crypto_alg_of; late_tac|intros a _]. apply late_encrypt. }
    intros H. now apply (HLate err H).
  - destruct (Nat.eqb_spec (List.length l) (List.length (dh_to (m_did m)))); [congruence|]. injection H as <-. now apply (ba_count m sk (Some l) l).
Qed.

(** ** What decrypt accepts *)

Lemma decrypter_ok : forall E a iv key ct aad p, decrypter E a iv key ct aad = Ok p <-> String.length key = 32 /\ content_dec E a key iv aad ct = Some p.
Proof.
  intros E a iv key ct aad p. unfold decrypter, content_dec, check_nonce, exact_len. destruct a.
  - destruct (Nat.ltb_spec (String.length iv) 24) as [H|H]; cbn [rbind].
    + split; [discriminate|]. destruct (Nat.eqb_spec (String.length iv) 24); [lia|]. now intros [_ G].
    + destruct (Nat.eqb_spec (String.length key) 32) as [HK|HK]; cbn [rbind]; [|split; [discriminate|tauto]].
      destruct (Nat.eqb_spec (String.length iv) 24); cbn [rbind]; [|split; [discriminate|now intros [_ G]]].
      destruct (xc_dec E key iv aad ct) as [q|]; cbn [oerr]; split; intros G; [apply ok_inj in G; subst; auto|destruct G as [_ G]; injection G as ->; reflexivity|discriminate|now destruct G].
  - destruct (Nat.ltb_spec (String.length iv) 12) as [H|H]; cbn [rbind].
    + split; [discriminate|]. destruct (Nat.leb_spec 12 (String.length iv)); [lia|]. now intros [_ G].
    + destruct (Nat.leb_spec 12 (String.length iv)) as [_|]; [|lia].
      destruct (Nat.eqb_spec (String.length key) 32) as [HK|HK]; cbn [rbind]; [|split; [discriminate|tauto]].
      destruct (gcm_dec E key (take 12 iv) aad ct) as [q|]; cbn [oerr]; split; intros G; [apply ok_inj in G; subst; auto|destruct G as [_ G]; injection G as ->; reflexivity|discriminate|now destruct G].
  - split; [discriminate|now intros [_ G]].
Qed.
Lemma member_text : forall es k t, dreq de_string (member es k) = Some t -> text_field [] (JObj es) k t.
Proof.
  intros es k t H. apply dreq_some in H. destruct H as [j [Hm Hj]]. destruct j; try discriminate. cbn in Hj. injection Hj as ->.
  eexists. split; [eapply member_In; exact Hm|eapply at_most_once_one; exact Hm].
Qed.
Lemma member_opt_text : forall es k t, dopt de_string (member es k) = Some (Some t) -> text_field [] (JObj es) k t.
Proof.
  intros es k t H. apply dopt_some in H. destruct H as [j [Hm Hj]]. destruct j; try discriminate. cbn in Hj. injection Hj as ->.
  eexists. split; [eapply member_In; exact Hm|eapply at_most_once_one; exact Hm].
Qed.
Lemma parse_slice_parse : forall s j, parse_slice s = Some j -> parse s = Some j.
Proof. intros s j H. unfold parse_slice in H. destruct (utf8_valid s) eqn:EU; [|discriminate]. exact H. Qed.
Lemma decrypt_opens : forall E a R1 R2 text key m, decrypt R1 R2 text (decrypter E a) key = Ok m ->
  exists iv aad ct, opens E a R1 R2 text key iv aad ct m.
Proof.
  intros E a R1 R2 text key m H. unfold decrypt in H. destruct (jwe_from_slice R1 text) as [e|] eqn:EJ; [|discriminate]. cbn [oerr rbind] in H.
  destruct (je_protected e) as [h|] eqn:EH; [|discriminate]. cbn [oerr rbind] in H.
  destruct (je_tag e) as [tg|] eqn:ET; [|discriminate]. cbn [oerr rbind] in H.
  unfold jwe_payload, jwe_iv in H. destruct (b64_decode (je_ciphertext e)) as [body|] eqn:EB; [|discriminate]. cbn [unwrap rbind] in H.
  destruct (b64_decode tg) as [tag|] eqn:EG; [|discriminate]. cbn [oerr rbind] in H.
  destruct (b64_decode (je_iv e)) as [iv|] eqn:EI; [|discriminate]. cbn [unwrap rbind] in H.
  destruct (decrypter E a iv key (body ++ tag) (header_b64 h)) as [raw| |] eqn:ED; try discriminate. apply oerr_ok in H.
  apply decrypter_ok in ED. destruct ED as [HK HD].
  unfold jwe_from_slice in EJ. destruct (parse_slice text) as [j|] eqn:EP; [|discriminate]. cbn [obind] in EJ. apply parse_slice_parse in EP.
  unfold de_jwe in EJ. destruct j as [| | | | |es]; try discriminate. cbv zeta in EJ.
  destruct (de_protected R1 (member es "protected")) as [p|] eqn:D1; [|discriminate]. cbn [obind] in EJ.
  destruct (dopt (de_jwm R1 false) (member es "unprotected")) as [u|]; [|discriminate]. cbn [obind] in EJ.
  destruct (dopt (de_vec (de_recipient R1)) (member es "recipients")) as [rs|]; [|discriminate]. cbn [obind] in EJ.
  destruct (dreq de_string (member es "ciphertext")) as [c|] eqn:D2; [|discriminate]. cbn [obind] in EJ.
  destruct (dreq de_string (member es "iv")) as [ivt|] eqn:D3; [|discriminate]. cbn [obind] in EJ.
  destruct (dopt de_string (member es "tag")) as [tgo|] eqn:D4; [|discriminate]. cbn [obind] in EJ.
  destruct (forallb _ _); [|discriminate]. apply some_inj in EJ. subst e. cbn [je_protected je_tag je_ciphertext je_iv] in *. subst p tgo.
  apply de_protected_some in D1. destruct D1 as [b [t [raw' [hj [Hm [Hb [Hp Hh]]]]]]].
  exists iv, (header_text h), (body ++ tag), es, hj, h, c, tg, ivt, body, tag, raw.
  split; [exact EP|]. split.
  { exists t, raw'. split; [|].
    - exists b. split; [eapply member_In; exact Hm|eapply at_most_once_one; exact Hm].
    - split; [now apply b64_decode_text|]. unfold parse_slice in Hp. destruct (utf8_valid raw') eqn:EU; [|discriminate]. split; [exact EU|exact Hp]. }
  split; [exact Hh|]. split; [reflexivity|]. split; [now apply member_text|]. split; [now apply b64_decode_text|].
  split; [now apply member_opt_text|]. split; [now apply b64_decode_text|]. split; [reflexivity|]. split; [now apply member_text|].
  split; [now apply b64_decode_text|]. auto.
Qed.

(** ** Contents of a sealed envelope *)

Lemma cek_entry_for : forall E rr dest a iv sealed tag, usable a ->
  entry_for dest (wrap_name a) (recipient_entries (cek_recipient E rr dest (wrap_ka a) iv sealed tag)).
Proof.
  intros E rr dest a iv sealed tag HU. unfold entry_for, recipient_entries. cbn [cek_recipient rc_header rc_encrypted_key]. unfold ser_jwk.
  cbn [jk_kty jk_use jk_crv jk_key_ops jk_alg jk_kid jk_epk sopt app]. eexists _, (did_of_url dest), _.
  split; [left; reflexivity|]. split; [right; right; left; reflexivity|]. split; [apply did_of_url_labelled|].
  split; [|right; left; reflexivity]. right. left. now rewrite wrap_ka_name.
Qed.
Lemma seal_entry_for : forall E rr m sk dest cek pk r alg, jh_alg (m_jwm m) = Some alg -> encrypt_cek E rr m sk dest cek pk = Ok r -> entry_for dest alg (recipient_entries r).
Proof.
  intros E rr m sk dest cek pk r alg HA H. apply encrypt_cek_ok in H. destruct H as [a [key [c [HU [HA' [_ [_ [_ [_ [_ [_ [_ ->]]]]]]]]]]]].
  rewrite HA in HA'. injection HA' as ->. now apply cek_entry_for.
Qed.
Lemma forall2_nth : forall A B (P : A -> B -> Prop) l l', List.length l' = List.length l ->
  (forall k x, nth_error l k = Some x -> exists y, nth_error l' k = Some y /\ P x y) -> Forall2 P l l'.
Proof.
  intros A B P. induction l as [|x l IH]; intros [|y l'] HL H; try discriminate; constructor.
  - destruct (H 0 x eq_refl) as [z [HZ HP]]. now injection HZ as <-.
  - apply IH; [now injection HL|]. intros k z HZ. exact (H (S k) z HZ).
Qed.
Lemma sealed_fields : forall h sh ct tag iv, exists tail, ser_jwe (sealed_env h sh ct tag iv) =
  JObj ([("protected", jstr (header_b64 h))] ++ match fst sh with Some r => recipient_entries r | None => [] end
        ++ match snd sh with Some l => [("recipients", JArr (map ser_recipient l))] | None => [] end ++ tail) /\
  tail = [("ciphertext", jstr (b64_encode ct)); ("iv", jstr (b64_encode iv)); ("tag", jstr (b64_encode tag))].
Proof. intros h sh ct tag iv. eexists. split; [|reflexivity]. reflexivity. Qed.
Lemma seal_contents : forall E rnd m sk keys text alg, jh_alg (m_jwm m) = Some alg -> seal E rnd m sk keys = Ok text ->
  exists es, parse text = Some (JObj es) /\ NoDup (map fst es) /\
   if m_flat_jwe m then (exists dest, dh_to (m_did m) = [dest] /\ entry_for dest alg es) /\ ~ In "recipients" (map fst es)
   else exists l, In ("recipients", JArr l) es /\ Forall2 (fun dest e => exists f, e = JObj f /\ entry_for dest alg f) (dh_to (m_did m)) l /\
        ~ In "header" (map fst es) /\ ~ In "encrypted_key" (map fst es).
Proof.
  intros E rnd m sk keys text alg HA H. destruct (seal_ok _ _ _ _ _ _ H) as [_ [_ [HFl _]]].
  apply seal_text in H. destruct H as [a [rs [sh [c [HU [HA' [HL [HN [HP [HSh [_ [_ [_ ->]]]]]]]]]]]]].
  destruct (sealed_fields (seal_header m) sh (take (String.length c - 16) c) (drop (String.length c - 16) c) (sr_iv rnd)) as [tail [HS ->]].
  eexists. split; [unfold jwe_json; rewrite parse_print by apply wf_ser_jwe; rewrite HS; reflexivity|].
  destruct (m_flat_jwe m) eqn:EF.
  - destruct HP as [->|[r [-> ->]]]; cbn [fst snd] in *; [exfalso; apply HSh; reflexivity|]. split; [cbn; repeat (constructor; [cbn; intuition discriminate|]); constructor|].
    split; [|cbn; intuition discriminate]. specialize (HFl eq_refl). destruct (dh_to (m_did m)) as [|dest [|d' l]] eqn:ED; try discriminate. exists dest. split; [reflexivity|].
    destruct (HN 0 dest eq_refl) as [r' [HR HE]]. injection HR as <-. apply (seal_entry_for E _ m sk dest _ _ r alg HA) in HE.
    destruct HE as [h [label [k [I1 [I2 [I3 [I4 I5]]]]]]]. exists h, label, k. cbn [app]. split; [right; apply in_or_app; now left|].
    split; [exact I2|]. split; [exact I3|]. split; [exact I4|]. right. apply in_or_app. now left.
  - destruct HP as [->|[r [-> ->]]]; cbn [fst snd] in *; [|exfalso; destruct HSh as [_ HSh]; discriminate HSh; discriminate].
    split; [cbn; repeat (constructor; [cbn; intuition discriminate|]); constructor|].
    exists (map ser_recipient rs). split; [right; left; reflexivity|]. split; [|split; cbn; intuition discriminate].
    apply forall2_nth; [now rewrite map_length|]. intros k dest HD. destruct (HN k dest HD) as [r [HR HE]]. exists (ser_recipient r).
    split; [rewrite nth_error_map, HR; reflexivity|]. exists (recipient_entries r). split; [reflexivity|]. eapply seal_entry_for; eassumption.
Qed.
(** The declared type. *)
Lemma seal_typ : forall m, jh_typ (seal_header m) = match jh_typ (m_jwm m) with DidCommForward => DidCommForward | _ => DidCommJwe end.
Proof. intros m. unfold seal_header. destruct (jh_typ (m_jwm m)) eqn:ET; cbn; auto. Qed.
Lemma encrypt_typ : forall m h, encrypt_header m = Ok h -> jh_typ h = match jh_typ (m_jwm m) with DidCommForward => DidCommForward | _ => DidCommJwe end /\ jh_skid h = dh_from (m_did m).
Proof.
  intros m h H. unfold encrypt_header in H. cbv zeta in H. destruct (m_recipients m) as [rs|].
  - cbn [rbind] in H. apply ok_inj in H. subst h. destruct (jh_typ (m_jwm m)) eqn:ET; cbn; auto.
  - rbinv H. rbinv E. apply ok_inj in E, H. subst. destruct (jh_typ (m_jwm m)) eqn:ET; cbn; auto.
Qed.
Lemma encrypt_header_strings : forall m h, rust_message m -> encrypt_header m = Ok h -> Forall rust_string (jwm_strings h).
Proof.
  intros m h HM H. pose proof (rm_strings m HM) as HS. unfold message_strings in HS. apply Forall_app in HS. destruct HS as [HJ HS]. apply Forall_app in HS. destruct HS as [HD _].
  assert (HTo : Forall rust_string (dh_to (m_did m))) by (unfold did_strings in HD; fa; assumption).
  assert (HFr : Forall rust_string (ostr (dh_from (m_did m)))) by (unfold did_strings in HD; fa; assumption).
  unfold encrypt_header in H. cbv zeta in H.
  set (h0 := match jh_typ (m_jwm m) with DidCommForward => m_jwm m | _ => jh_with_typ (m_jwm m) DidCommJwe end) in H.
  assert (H0 : Forall rust_string (jwm_strings h0)) by (unfold h0; destruct (jh_typ (m_jwm m)); exact HJ).
  assert (H1 : exists h1, h = jh_with_skid h1 (dh_from (m_did m)) /\ Forall rust_string (jwm_strings h1)).
  { destruct (m_recipients m) as [rs|].
    - cbn [rbind] in H. apply ok_inj in H. exists h0. auto.
    - unfold first_to in H. destruct (dh_to (m_did m)) as [|t l]; [discriminate|]. cbn [rbind] in H. apply ok_inj in H. eexists. split; [symmetry; exact H|].
      unfold jwm_strings in *. cbn [jh_with_kid jh_enc jh_kid jh_skid jh_alg jh_jku jh_jwk jh_epk jh_cty]. fa; try assumption. constructor; [now inversion HTo|constructor]. }
  destruct H1 as [h1 [-> H1]]. unfold jwm_strings in *. cbn [jh_with_skid jh_enc jh_kid jh_skid jh_alg jh_jku jh_jwk jh_epk jh_cty]. fa; assumption.
Qed.
Lemma encrypt_types : forall iv m f cek text, rust_message m -> encrypt iv m f cek = Ok text ->
  exists es hj, parse text = Some (JObj es) /\ protected_tree (JObj es) hj /\
    text_field jose_names hj "typ" (match jh_typ (m_jwm m) with DidCommForward => "https://didcomm.org/routing/2.0/forward" | _ => "application/didcomm-encrypted+json" end).
Proof.
  intros iv m f cek text HM H. apply encrypt_ok in H. destruct H as [h [c [sh [EH [_ [_ [HSh ->]]]]]]].
  destruct (encrypt_typ m h EH) as [HT _].
  destruct (sealed_fields h sh (take (String.length c - 16) c) (drop (String.length c - 16) c) iv) as [tail [HS ->]].
  eexists. exists (ser_jwm h). split; [unfold jwe_json; rewrite parse_print by apply wf_ser_jwe; rewrite HS; reflexivity|]. split.
  - eapply header_protected_tree; [|eapply encrypt_header_strings; eassumption]. apply holds_one; [left; reflexivity|].
    destruct sh as [[r|] [l|]]; cbn; repeat (constructor; [cbn; intuition discriminate|]); constructor.
  - destruct (typ_field h) as [b Hb]. exists b. rewrite HT in Hb. destruct (jh_typ (m_jwm m)); exact Hb.
Qed.

(** ** The constant key *)

Lemma seal_decrypt : forall E rnd m sk keys text a k1 k2, env_ok E -> crypto_ok E -> sendable E m -> few_custom (m_jwm m) ->
  jh_alg (m_jwm m) = Some (wrap_name a) -> usable a -> seal E rnd m sk keys = Ok text ->
  exists rs, List.length rs = List.length (dh_to (m_did m)) /\
    decrypt (rt E k1) (rt E k2) text (decrypter E a) seal_cek = Ok (re_message (rt E k2) (with_recipients m (Some rs))).
Proof.
  intros E rnd m sk keys text a k1 k2 HE HC HS HF HA HU H.
  apply seal_text in H. destruct H as [a' [rs [sh [c [HU' [HA' [HL [HN [HP [HSh [HG [HEn [H16 ->]]]]]]]]]]]]].
  assert (a' = a) by (rewrite HA in HA'; destruct a, a'; cbn in HA'; congruence). subst a'.
  exists rs. split; [exact HL|]. rewrite decrypt_env.
  - rewrite take_drop. rewrite re_jwm_few; [|now apply env_drt|now apply seal_header_few].
    destruct (cipher_round E a _ _ _ _ c HC HU HEn) as [-> _].
    rewrite (sendable_from_slice E k2 _ (with_recipients_sendable E m rs HS HG)). reflexivity.
  - eapply sealed_env_good; eauto. eapply seal_header_good. exact HS.
Qed.

(** ** Envelopes without sender *)

Lemma find_cek_none : forall E e sk pk l acc, jwe_get e jh_skid = None -> (exists x, acc = Err x) ->
  exists x, find_cek E e sk pk acc l = Err x.
Proof.
  intros E e sk pk l. induction l as [|r l IH]; intros acc HS HA; [exact HA|]. cbn [find_cek].
  assert (HD : exists x, decrypt_cek E e sk r pk = Err x).
  { unfold decrypt_cek. destruct (jwe_get e jh_alg); cbn [oerr rbind]; [|eexists; reflexivity]. rewrite HS. eexists. reflexivity. }
  destruct HD as [x ->]. apply IH; [exact HS|]. now exists x.
Qed.
Lemma seal_anonymous : forall E rnd m sk keys text rsk spk, sendable E m -> dh_from (m_did m) = None -> seal E rnd m sk keys = Ok text ->
  32 <= String.length rsk -> (forall k, spk = Some k -> 32 <= String.length k) -> exists x, receive_jwe E text rsk spk = Err x.
Proof.
  intros E rnd m sk keys text rsk spk HS HFr H L1 L2.
  apply seal_text in H. destruct H as [a [rs [sh [c [HU [HA [HL [HN [HP [_ [HG [_ [_ ->]]]]]]]]]]]]].
  unfold receive_jwe. destruct (jwe_round (rt E 1) (sealed_env (seal_header m) sh (take (String.length c - 16) c) (drop (String.length c - 16) c) (sr_iv rnd))) as [_ ->].
  { eapply sealed_env_good; eauto. eapply seal_header_good. exact HS. }
  cbn [oerr rbind].
  assert (HA1 : jwe_get (re_jwe (rt E 1) (sealed_env (seal_header m) sh (take (String.length c - 16) c) (drop (String.length c - 16) c) (sr_iv rnd))) jh_alg = Some (wrap_name a)).
  { rewrite re_sealed_env. apply jwe_get_env. change (jh_alg (seal_header m) = Some (wrap_name a)). now rewrite seal_header_alg. }
  assert (HS1 : jwe_get (re_jwe (rt E 1) (sealed_env (seal_header m) sh (take (String.length c - 16) c) (drop (String.length c - 16) c) (sr_iv rnd))) jh_skid = None).
  { rewrite re_sealed_env. apply jwe_get_env_none. exact HFr. }
  rewrite HA1, HS1. cbn [oerr rbind]. destruct spk as [k|]; [|eexists; reflexivity]. cbn [rbind]. specialize (L2 k eq_refl). rewrite !arr32_ok by assumption. cbn [rbind].
  assert (HCA : crypto_alg_of (wrap_name a) = Ok a) by (apply crypto_alg_of_ok; now split). rewrite HCA. cbn [rbind].
  rewrite (placed_recipients sh rs) by exact HP.
  destruct (find_cek_none E (re_jwe (rt E 1) (sealed_env (seal_header m) sh (take (String.length c - 16) c) (drop (String.length c - 16) c) (sr_iv rnd))) rsk (Some k)
             (map (re_recipient (rt E 1)) rs) (Err (EGeneric "no recipients found in JWE")) HS1) as [x ->]; [eexists; reflexivity|].
  eexists. reflexivity.
Qed.
Lemma receive_err : forall E text rsk spk gpk x, get_message_type (rt E 0) text = Ok DidCommJwe -> receive_jwe E text rsk spk = Err x ->
  receive E text (Some rsk) spk gpk = Err x.
Proof. intros E text rsk spk gpk x H1 H2. unfold receive. rewrite H1. cbn [rbind is_jwe_type oerr]. now rewrite H2. Qed.
Lemma seal_classify : forall E rnd m sk keys text R, seal E rnd m sk keys = Ok text -> get_message_type R text = Ok DidCommJwe.
Proof. intros E rnd m sk keys text R H. apply seal_text in H. destruct H as [a [rs [sh [c [_ [_ [_ [_ [_ [_ [_ [_ [_ ->]]]]]]]]]]]]]. apply classify_jwe. Qed.

(** ** A sender that claims to be somebody else *)

(** Made with [sk] only: the header names [me], the encrypted message is [m] as it is. *)
Definition forge (E : env) (rnd : seal_rand) (m : message) (me sk : string) (keys : list (option string)) : res string :=
  let? rs := seal_loop E (sr_rec rnd) m sk 0 (dh_to (m_did m)) keys in
  let? a := crypter_of (m_jwm m) in
  let h := jh_with_skid (jh_with_typ (m_jwm m) DidCommJwe) (Some me) in
  let? c := encryptor E a (sr_iv rnd) seal_cek (message_json (with_recipients m (Some rs))) (header_b64 h) in
  let? p := split_tag c in
  Ok (jwe_json (sealed_env h (None, Some rs) (fst p) (snd p) (sr_iv rnd))).
Lemma forge_total : forall E rnd m me sk keys a, crypto_ok E -> crypto_total E -> rand_ok rnd -> usable a ->
  jh_alg (m_jwm m) = Some (wrap_name a) -> String.length sk = 32 -> List.length keys = List.length (dh_to (m_did m)) ->
  (forall k dest, nth_error (dh_to (m_did m)) k = Some dest -> exists key, known_key E dest (nth k keys None) key /\ 32 <= String.length key) ->
  exists text, forge E rnd m me sk keys = Ok text.
Proof.
  intros E rnd m me sk keys a HC HT [A1 A2 A3] HU HA HL HKL HK. unfold forge.
  destruct (seal_loop_total E (sr_rec rnd) m sk (dh_to (m_did m)) keys 0 HKL) as [rs HRS].
  { intros k dest HN. cbn [Nat.add]. destruct (HK k dest HN) as [key [HKK HKLn]].
    destruct (wrap_total E a (kek_of (x_dh E (take 32 (rr_esk (sr_rec rnd k))) (take 32 key)) (x_dh E (take 32 sk) (take 32 key)) a)
                (rr_iv (sr_rec rnd k) (wrap_len a)) "" seal_cek HT HU (kek_of_length _ _ _) (A2 _ _)) as [c HW].
    eexists. apply (encrypt_cek_total E (sr_rec rnd k) m sk dest seal_cek (nth k keys None) a key c); auto.
    - lia.
    - rewrite A1. lia.
    - eapply wrap_tag; eassumption. }
  rewrite HRS. cbn [rbind]. unfold crypter_of. rewrite HA.
  assert (HCA : crypto_alg_of (wrap_name a) = Ok a) by (apply crypto_alg_of_ok; now split). rewrite HCA. cbn [rbind]. cbv zeta.
  match goal with |- context [encryptor E a ?iv ?k ?p ?ad] => destruct (encryptor_total E a iv k p ad HT HU seal_cek_length A3) as [c HE] end.
  rewrite HE. cbn [rbind]. destruct (cipher_round E a _ _ _ _ c HC HU HE) as [_ [H16 _]]. rewrite split_tag_long by exact H16. eexists. reflexivity.
Qed.
Lemma forge_receive : forall E rnd m me sk keys text i dest rsk spk gpk, env_ok E -> crypto_ok E -> rand_ok rnd -> sendable E m -> few_custom (m_jwm m) ->
  avoids envelope_names (dh_other (m_did m)) -> jh_typ (m_jwm m) <> DidCommJws -> rust_string me -> String.length sk = 32 ->
  List.length keys = List.length (dh_to (m_did m)) -> forge E rnd m me sk keys = Ok text ->
  nth_error (dh_to (m_did m)) i = Some dest -> String.length rsk = 32 ->
  known_key E dest (nth i keys None) (x_pub E rsk) -> known_key E me spk (x_pub E sk) -> others_closed E rnd m sk (Some keys) rsk i ->
  exists rs, receive E text (Some rsk) spk gpk = Ok (re_message (rt E 9) (re_message (rt E 3) (with_recipients m (Some rs)))).
Proof.
  intros E rnd m me sk keys text i dest rsk spk gpk HE HC [A1 A2 A3] HS HF HA HT HMe LS HKL H HN L HK HSK HB. unfold forge in H.
  destruct (seal_loop _ _ _ _ _ _ _) as [rs| |] eqn:EL; try discriminate. cbn [rbind] in H.
  destruct (crypter_of (m_jwm m)) as [a| |] eqn:EA; try discriminate. cbn [rbind] in H. cbv zeta in H.
  set (h := jh_with_skid (jh_with_typ (m_jwm m) DidCommJwe) (Some me)) in *.
  destruct (encryptor _ _ _ _ _ _) as [c| |] eqn:EC; try discriminate. cbn [rbind] in H.
  unfold crypter_of in EA. destruct (jh_alg (m_jwm m)) as [s|] eqn:EAl; [|discriminate]. apply crypto_alg_of_ok in EA. destruct EA as [HU ->].
  destruct (cipher_round E a _ _ _ _ c HC HU EC) as [_ [H16 _]]. rewrite split_tag_long in H by exact H16. cbn [rbind fst snd] in H. apply ok_inj in H. subst text.
  apply seal_loop_ok in EL; [|exact HKL]. destruct EL as [HRL HRN]. cbn [Nat.add] in HRN.
  assert (HG : Forall good_rc rs) by (apply (seal_entries_good E (sr_rec rnd) m sk seal_cek (fun k => nth k keys None) (dh_to (m_did m)) rs HRL HRN)).
  assert (HH : good_header h) by (apply good_skid; [exact HMe|]; apply good_typ; eapply sendable_header; exact HS).
  assert (HPL : String.length (x_pub E sk) = 32) by (apply HC; exact LS).
  exists rs. apply receive_sealed_text; auto.
  - now apply with_recipients_sendable.
  - apply classify_jwe.
  - apply (receive_jwe_env E a h (None, Some rs) rs c (sr_iv rnd) seal_cek rsk spk me (x_pub E sk)); auto; try lia.
    + now left.
    + now apply with_recipients_sendable.
    + intros e HA1 HS1. apply (find_cek_seal E (rt E 1) e m rnd sk rsk spk (Some keys) rs i dest me); auto.
      * now apply env_drt.
      * congruence.
Qed.

(** ** Which key a received envelope vouches for *)

Lemma find_cek_in : forall E e sk pk l acc k, (forall x, acc <> Ok x) -> find_cek E e sk pk acc l = Ok k -> exists r, In r l /\ decrypt_cek E e sk r pk = Ok k.
Proof.
  intros E e sk pk. induction l as [|r l IH]; intros acc k HA H; cbn [find_cek] in H; [now elim (HA k)|].
  destruct (decrypt_cek E e sk r pk) as [x|x|] eqn:ED; [|destruct (IH (Err x) k) as [r' [H1 H2]]; [discriminate|exact H|]; exists r'; split; [now right|exact H2]|discriminate].
  apply ok_inj in H. subst x. exists r. split; [now left|exact ED].
Qed.
Lemma decrypt_cek_ok : forall E e sk r pk k, decrypt_cek E e sk r pk = Ok k ->
  exists a skid key ek epub iv ct, usable a /\ jwe_get e jh_alg = Some (wrap_name a) /\ jwe_get e jh_skid = Some skid /\ known_key E skid pk key /\
    32 <= String.length sk /\ 32 <= String.length key /\ jk_epk (rc_header r) = Some ek /\ b64_decode (ep_x ek) = Some epub /\
    wrap_dec E a (kek_of (x_dh E (take 32 sk) epub) (x_dh E (take 32 sk) (take 32 key)) a) iv "" ct = Some k.
Proof.
  intros E e sk r pk k H. unfold decrypt_cek in H. destruct (jwe_get e jh_alg) as [alg|]; [|discriminate]. cbn [oerr rbind] in H.
  destruct (jwe_get e jh_skid) as [skid|]; [|discriminate]. cbn [oerr rbind] in H.
  destruct (jk_epk (rc_header r)) as [ek|]; [|discriminate]. cbn [oerr rbind] in H.
  destruct (b64_decode (ep_x ek)) as [epub|] eqn:EB; [|discriminate]. cbn [oerr rbind] in H.
  destruct (negb (String.length epub =? 32)%nat); [discriminate|].
  destruct (arr32 sk) as [s| |] eqn:EA; try discriminate. cbn [rbind] in H. apply arr32_inv in EA. destruct EA as [L ->].
  destruct (generate_kek E skid sk (x_dh E (take 32 sk) epub) alg pk) as [kek| |] eqn:EK; try discriminate. cbn [rbind] in H.
  destruct (map_get "iv" (jk_other (rc_header r))) as [ivt|]; [|discriminate]. cbn [oerr rbind] in H.
  destruct (b64_decode ivt) as [iv|]; [|discriminate]. cbn [oerr rbind] in H.
  destruct (map_get "tag" (jk_other (rc_header r))) as [tgt|]; [|discriminate]. cbn [oerr rbind] in H.
  destruct (b64_decode (rc_encrypted_key r)) as [sealed|]; [|discriminate]. cbn [oerr rbind] in H.
  destruct (b64_decode tgt) as [tag|]; [|discriminate]. cbn [oerr rbind] in H.
  destruct (String.eqb_spec alg "ECDH-1PU+XC20PKW") as [->|]; [|destruct (String.eqb_spec alg "ECDH-1PU+A256KW") as [->|]; [|discriminate]]; rbinv H;
    apply exact_len_inv in E0, E1; destruct E0 as [_ ->]; destruct E1 as [_ ->]; apply oerr_ok in H.
  - apply (generate_kek_ok E skid sk _ XC20P) in EK. destruct EK as [key [K1 [K2 [K3 ->]]]]. exists XC20P, skid, key, ek, epub, iv, (sealed ++ tag). repeat split; auto. discriminate.
  - apply (generate_kek_ok E skid sk _ A256GCM) in EK. destruct EK as [key [K1 [K2 [K3 ->]]]]. exists A256GCM, skid, key, ek, epub, iv, (sealed ++ tag). repeat split; auto. discriminate.
Qed.
Lemma receive_jwe_sender : forall E text sk spk t e l, receive_jwe E text sk spk = Ok t -> jwe_from_str (rt E 1) text = Some e -> jwe_recipients e = Some l ->
  exists a skid key r ek epub iv ct cek, usable a /\ jwe_get e jh_skid = Some skid /\ known_key E skid spk key /\ In r l /\
    jk_epk (rc_header r) = Some ek /\ b64_decode (ep_x ek) = Some epub /\
    wrap_dec E a (kek_of (x_dh E (take 32 sk) epub) (x_dh E (take 32 sk) (take 32 key)) a) iv "" ct = Some cek.
Proof.
  intros E text sk spk t e l H HJ HL. unfold receive_jwe in H. rewrite HJ in H. cbn [oerr rbind] in H.
  destruct (jwe_get e jh_alg) as [alg|]; [|discriminate]. cbn [oerr rbind] in H.
  match type of H with rbind ?y _ = _ => destruct y as [pk| |] end; try discriminate. cbn [rbind] in H.
  destruct (arr32 sk); try discriminate. cbn [rbind] in H. destruct (arr32 pk); try discriminate. cbn [rbind] in H.
  destruct (crypto_alg_of alg); try discriminate. cbn [rbind] in H. rewrite HL in H.
  destruct (find_cek E e sk spk _ l) as [cek| |] eqn:EF; try discriminate.
  apply find_cek_in in EF; [|discriminate]. destruct EF as [r [HI HD]]. apply decrypt_cek_ok in HD.
  destruct HD as [a' [skid [key [ek [epub [iv [ct [HU [_ [H1 [H2 [_ [_ [H3 [H4 H5]]]]]]]]]]]]]]]. exists a', skid, key, r, ek, epub, iv, ct, cek. repeat (split; [assumption|]). assumption.
Qed.

(** ** A256CBC *)

Lemma shared_np : forall E sk did pk, 32 <= String.length sk -> (forall key, known_key E did pk key -> 32 <= String.length key) -> shared_for E sk did pk <> Panic.
Proof.
  intros E sk did pk L HK. unfold shared_for. destruct pk as [k|].
  - cbn [rbind]. rewrite !arr32_ok; [discriminate|apply HK; now left|exact L].
  - destruct (resolve E did) as [doc|] eqn:ER; [|discriminate]. cbn [oerr rbind]. destruct (doc_key doc "X25519") as [k|] eqn:EK; [|discriminate]. cbn [oerr rbind].
    rewrite !arr32_ok; [discriminate|apply HK; right; split; [reflexivity|]; now exists doc|exact L].
Qed.
Lemma unknown_alg_cek : forall E rr m sk dest cek pk alg, jh_alg (m_jwm m) = Some alg -> ~ In alg (map fst wrap_table) ->
  32 <= String.length sk -> 32 <= String.length (rr_esk rr) -> (forall key, known_key E dest pk key -> 32 <= String.length key) ->
  exists x, encrypt_cek E rr m sk dest cek pk = Err x.
Proof.
  intros E rr m sk dest cek pk alg HA HN L1 L2 HK. unfold encrypt_cek. rewrite HA. cbn [oerr rbind].
  pose proof (shared_np E (rr_esk rr) dest pk L2 HK) as H1. pose proof (shared_np E sk dest pk L1 HK) as H2. unfold generate_kek.
  destruct (shared_for E (rr_esk rr) dest pk) as [ze|x|]; [|now exists x|congruence]. cbn [rbind].
  destruct (shared_for E sk dest pk) as [sh|x|]; [|now exists x|congruence]. cbn [rbind].
  destruct (concat_kdf (ze ++ sh) alg None None) as [kek|x|] eqn:EK; [|now exists x|].
  - cbn [rbind]. destruct (String.eqb_spec alg "ECDH-1PU+A256KW") as [->|]; [exfalso; apply HN; now left|].
    destruct (String.eqb_spec alg "ECDH-1PU+XC20PKW") as [->|]; [exfalso; apply HN; right; now left|]. eexists. reflexivity.
  - unfold concat_kdf, kdf_input, len_input, opt_input in EK. destruct (_ <? _)%N; discriminate.
Qed.
Lemma unknown_alg_seal : forall E rnd m sk keys alg, jh_alg (m_jwm m) = Some alg -> ~ In alg (map fst wrap_table) ->
  (forall text, seal E rnd m sk keys <> Ok text) /\
  (rand_ok rnd -> (forall k dest key, nth_error (dh_to (m_did m)) k = Some dest -> known_key E dest (given_key keys k) key -> 32 <= String.length key) ->
   exists x, seal E rnd m sk keys = Err x).
Proof.
  intros E rnd m sk keys alg HA HN. split.
  - intros text H. apply seal_ok in H. destruct H as [_ [_ [_ [_ [rs [a [_ [_ [HU [HA' _]]]]]]]]]]. rewrite HA in HA'. injection HA' as ->.
    apply HN. destruct a; [right; left; reflexivity|left; reflexivity|congruence].
  - intros [A1 A2 A3] HK.
    destruct (Nat.eq_dec (String.length sk) 32) as [L|L]; [|eexists; apply bad_argument_err; constructor; exact L].
    unfold seal. rewrite L. cbn [Nat.eqb negb]. set (to := dh_to (m_did m)) in *.
    destruct keys as [l|].
    + destruct (Nat.eqb_spec (List.length l) (List.length to)) as [HL|HL]; cbn [negb rbind]; [|eexists; reflexivity].
      destruct (List.length to =? 0)%nat eqn:E0; [eexists; reflexivity|]. destruct (m_flat_jwe m && (1 <? List.length to)%nat)%bool; [eexists; reflexivity|].
      destruct to as [|d ds]; [discriminate|]. destruct l as [|p ps]; [discriminate|]. cbn [seal_loop].
      destruct (unknown_alg_cek E (sr_rec rnd 0) m sk d seal_cek p alg HA HN) as [x ->]; [lia|rewrite A1; lia| |eexists; reflexivity].
      intros key HKK. apply (HK 0 d key eq_refl). exact HKK.
    + cbn [rbind]. destruct (List.length to =? 0)%nat eqn:E0; [eexists; reflexivity|]. destruct (m_flat_jwe m && (1 <? List.length to)%nat)%bool; [eexists; reflexivity|].
      destruct to as [|d ds]; [discriminate|]. cbn [List.length repeat seal_loop].
      destruct (unknown_alg_cek E (sr_rec rnd 0) m sk d seal_cek None alg HA HN) as [x ->]; [lia|rewrite A1; lia| |eexists; reflexivity].
      intros key HKK. apply (HK 0 d key eq_refl). exact HKK.
Qed.
Lemma as_jwe_alg : forall r m a key, jh_alg (m_jwm (as_jwe r m a key)) = Some (match a with A256CBC => "A256CBC" | _ => wrap_name a end).
Proof.
  intros r m a key. unfold as_jwe. destruct key as [k|]; [destruct a; reflexivity|]. destruct (dh_from (m_did m)) as [f|]; [|destruct a; reflexivity].
  destruct (r f); destruct a; reflexivity.
Qed.

(** ** The iv of A256GCM *)

Lemma find_cek_ext : forall E e e' sk pk l acc, jwe_get e jh_alg = jwe_get e' jh_alg -> jwe_get e jh_skid = jwe_get e' jh_skid ->
  find_cek E e sk pk acc l = find_cek E e' sk pk acc l.
Proof.
  intros E e e' sk pk l acc HA HS. revert acc. induction l as [|r l IH]; intros acc; [reflexivity|]. cbn [find_cek].
  assert (HD : decrypt_cek E e sk r pk = decrypt_cek E e' sk r pk) by (unfold decrypt_cek; now rewrite HA, HS). rewrite HD.
  destruct (decrypt_cek E e' sk r pk); [reflexivity|apply IH|reflexivity].
Qed.
Lemma gcm_iv_ext : forall E iv iv' key ct aad, take 12 iv = take 12 iv' -> 12 <= String.length iv -> 12 <= String.length iv' ->
  decrypter E A256GCM iv key ct aad = decrypter E A256GCM iv' key ct aad.
Proof.
  intros E iv iv' key ct aad HT L L'. unfold decrypter, check_nonce. destruct (Nat.ltb_spec (String.length iv) 12); [lia|]. destruct (Nat.ltb_spec (String.length iv') 12); [lia|].
  now rewrite HT.
Qed.
Lemma receive_iv_ext : forall E h sh rs ct tag iv iv', good_header h -> placed sh rs -> Forall good_rc rs -> jh_alg h = Some (wrap_name A256GCM) ->
  take 12 iv = take 12 iv' -> 12 <= String.length iv -> 12 <= String.length iv' ->
  forall rsk spk gpk, receive E (jwe_json (sealed_env h sh ct tag iv)) rsk spk gpk = receive E (jwe_json (sealed_env h sh ct tag iv')) rsk spk gpk.
Proof.
  intros E h sh rs ct tag iv iv' HH HP HR HA HT L L' rsk spk gpk.
  pose proof (sealed_env_good h sh rs ct tag iv HH HP HR) as HG. pose proof (sealed_env_good h sh rs ct tag iv' HH HP HR) as HG'.
  assert (HJ : forall k, receive_jwe E (jwe_json (sealed_env h sh ct tag iv)) k spk = receive_jwe E (jwe_json (sealed_env h sh ct tag iv')) k spk).
  { intros k. unfold receive_jwe. destruct (jwe_round (rt E 1) _ HG) as [_ ->]. destruct (jwe_round (rt E 1) _ HG') as [_ ->]. cbn [oerr rbind]. rewrite !re_sealed_env.
    set (h1 := re_jwm (rt E 1) h). set (sh1 := (_, _)). 
    assert (HA1 : forall v, jwe_get (sealed_env h1 sh1 ct tag v) jh_alg = Some (wrap_name A256GCM)) by (intros v; apply jwe_get_env; exact HA).
    rewrite !HA1. cbn [oerr rbind].
    change (jwe_get (sealed_env h1 sh1 ct tag iv) jh_skid) with (jwe_get (sealed_env h1 sh1 ct tag iv') jh_skid).
    match goal with |- rbind ?y _ = rbind ?y _ => destruct y as [pk| |]; [|cbn [rbind]; reflexivity|cbn [rbind]; reflexivity] end. cbn [rbind].
    destruct (arr32 k); [|cbn [rbind]; reflexivity|cbn [rbind]; reflexivity]. cbn [rbind]. destruct (arr32 pk) as [p| |]; [|cbn [rbind]; reflexivity|cbn [rbind]; reflexivity]. cbn [rbind].
    change (crypto_alg_of (wrap_name A256GCM)) with (Ok A256GCM). cbn [rbind].
    assert (HD : forall key, decrypt (rt E 2) (rt E 3) (jwe_json (sealed_env h sh ct tag iv)) (decrypter E A256GCM) key =
                             decrypt (rt E 2) (rt E 3) (jwe_json (sealed_env h sh ct tag iv')) (decrypter E A256GCM) key).
    { intros key. rewrite !decrypt_env by assumption. now rewrite (gcm_iv_ext E iv iv'). }
    change (jwe_recipients (sealed_env h1 sh1 ct tag iv)) with (jwe_recipients (sealed_env h1 sh1 ct tag iv')).
    destruct (jwe_recipients (sealed_env h1 sh1 ct tag iv')) as [l|].
    - rewrite (find_cek_ext E (sealed_env h1 sh1 ct tag iv) (sealed_env h1 sh1 ct tag iv')) by reflexivity.
      destruct (cek_error _) as [key| |]; [|cbn [rbind]; reflexivity|cbn [rbind]; reflexivity]. cbn [rbind]. now rewrite HD.
    - now rewrite HD. }
  unfold receive. rewrite !classify_jwe. cbn [rbind is_jwe_type]. destruct rsk as [k|]; cbn [oerr rbind]; [|reflexivity]. now rewrite HJ.
Qed.
Lemma seal_iv_tail : forall E rnd m sk keys text iv', sendable E m -> jh_alg (m_jwm m) = Some "ECDH-1PU+A256KW" -> rand_ok rnd ->
  seal E rnd m sk keys = Ok text -> take 12 iv' = take 12 (sr_iv rnd) -> 12 <= String.length iv' ->
  exists pre post, text = print (JObj (pre ++ ("iv", jstr (b64_encode (sr_iv rnd))) :: post)) /\
    (iv' <> sr_iv rnd -> print (JObj (pre ++ ("iv", jstr (b64_encode iv')) :: post)) <> text) /\
    forall rsk spk gpk, receive E (print (JObj (pre ++ ("iv", jstr (b64_encode iv')) :: post))) rsk spk gpk = receive E text rsk spk gpk.
Proof.
  intros E rnd m sk keys text iv' HS HA HR HT HI HL. apply seal_text in HT.
  destruct HT as [a [rs [sh [c [H1 [H2 [H3 [H4 [H5 [_ [H6 [H7 [H8 ->]]]]]]]]]]]]].
  set (ct := take (String.length c - 16) c). set (tag := drop (String.length c - 16) c).
  exists ([("protected", jstr (header_b64 (seal_header m)))] ++ match fst sh with Some r => recipient_entries r | None => [] end
        ++ sopt "recipients" (fun l => JArr (map ser_recipient l)) (snd sh) ++ [("ciphertext", jstr (b64_encode ct))])%list, [("tag", jstr (b64_encode tag))].
  assert (HJ : forall v, print (JObj (([("protected", jstr (header_b64 (seal_header m)))] ++ match fst sh with Some r => recipient_entries r | None => [] end
        ++ sopt "recipients" (fun l => JArr (map ser_recipient l)) (snd sh) ++ [("ciphertext", jstr (b64_encode ct))]) ++ ("iv", jstr (b64_encode v)) :: [("tag", jstr (b64_encode tag))])%list) =
        jwe_json (sealed_env (seal_header m) sh ct tag v)).
  { intros v. unfold jwe_json, ser_jwe, sealed_env. cbn [je_protected je_unprotected je_recipient je_recipients je_ciphertext je_iv je_tag sopt].
    do 2 f_equal. rewrite <- !app_assoc. reflexivity. }
  rewrite !HJ. split; [reflexivity|]. split.
  { intros HN HEq. unfold jwe_json in HEq. apply print_inj in HEq; [|apply wf_ser_jwe|apply wf_ser_jwe]. unfold ser_jwe, sealed_env in HEq.
    cbn [je_protected je_unprotected je_recipient je_recipients je_ciphertext je_iv je_tag sopt] in HEq. injection HEq as HEq.
    apply app_inv_head, app_inv_head in HEq. injection HEq as HEq. apply HN. now apply b64_encode_inj. }
  intros rsk spk gpk. symmetry. apply (receive_iv_ext E (seal_header m) sh rs).
  - eapply seal_header_good; eassumption.
  - exact H5.
  - exact H6.
  - now rewrite seal_header_alg.
  - now symmetry.
  - rewrite (ra_iv rnd HR). lia.
  - exact HL.
Qed.

(** ** Custom members of header keys *)

Lemma decrypter_other_aad : forall E a iv key p aad c aad', data_bound (xc_enc E) (xc_dec E) -> data_bound (gcm_enc E) (gcm_dec E) -> usable a ->
  encryptor E a iv key p aad = Ok c -> aad' <> aad -> exists x, decrypter E a iv key c aad' = Err x.
Proof.
  intros E a iv key p aad c aad' BX BG HU H HN. destruct a; [| |congruence]; unfold encryptor in H; unfold decrypter; rbinv H; apply oerr_ok in H; cbn [rbind].
  - apply exact_len_inv in E1, E2. destruct E1 as [_ ->]. destruct E2 as [E2 ->]. rewrite (BX _ _ _ _ _ _ H HN). eexists. reflexivity.
  - apply exact_len_inv in E1. destruct E1 as [E1 ->]. rewrite (BG _ _ _ _ _ _ H HN). eexists. reflexivity.
Qed.
Lemma seal_header_keys : forall m, jh_jwk (seal_header m) = jh_jwk (m_jwm m) /\ jh_epk (seal_header m) = jh_epk (m_jwm m).
Proof. intros m. unfold seal_header. destruct (jh_typ (m_jwm m)); split; reflexivity. Qed.
Lemma seal_order_rejects : forall E rnd m sk keys text R2, data_bound (xc_enc E) (xc_dec E) -> data_bound (gcm_enc E) (gcm_dec E) ->
  sendable E m -> many_custom (m_jwm m) -> seal E rnd m sk keys = Ok text -> exists a, jh_alg (m_jwm m) = Some (wrap_name a) /\ usable a /\
  decrypt (rev_drt E) R2 text (decrypter E a) seal_cek = Err EPlugCryptoFailure.
Proof.
  intros E rnd m sk keys text R2 BX BG HS HM HT. apply seal_text in HT.
  destruct HT as [a [rs [sh [c [H1 [H2 [H3 [H4 [H5 [_ [H6 [H7 [H8 ->]]]]]]]]]]]]]. exists a. split; [exact H2|]. split; [exact H1|].
  pose proof (seal_header_good E m HS) as HG. pose proof (good_header_ok _ HG) as [HO _].
  rewrite decrypt_env by (now apply (sealed_env_good (seal_header m) sh rs)). rewrite take_drop.
  assert (HN : header_b64 (re_jwm (rev_drt E) (seal_header m)) <> header_b64 (seal_header m)).
  { intros HE. change (header_text (re_jwm (rev_drt E) (seal_header m)) = header_text (seal_header m)) in HE.
    apply header_text_inj in HE; [|now apply re_rev_ok|exact HO]. apply (re_rev_diff E (seal_header m) HO); [|exact HE].
    destruct (seal_header_keys m) as [K1 K2]. unfold many_custom. rewrite K1, K2. exact HM. }
  destruct (decrypter_other_aad E a _ _ _ _ _ _ BX BG H1 H7 HN) as [x ->]. reflexivity.
Qed.
Lemma seal_order_free : forall E rnd m sk keys text R R' R2 f key, drt_ok R -> drt_ok R' -> sendable E m -> few_custom (m_jwm m) ->
  seal E rnd m sk keys = Ok text -> decrypt R R2 text f key = decrypt R' R2 text f key.
Proof.
  intros E rnd m sk keys text R R' R2 f key HR HR' HS HF HT. apply seal_text in HT.
  destruct HT as [a [rs [sh [c [H1 [H2 [H3 [H4 [H5 [_ [H6 [H7 [H8 ->]]]]]]]]]]]]].
  pose proof (seal_header_good E m HS) as HG. rewrite !decrypt_env by (now apply (sealed_env_good (seal_header m) sh rs)).
  apply seal_header_few in HF. now rewrite !re_jwm_few.
Qed.
