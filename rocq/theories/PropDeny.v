(** Envelopes that their recipients could have made: C76. *)

From Coq Require Import Ascii String Arith ZArith NArith List Bool Permutation Lia.
From Verif Require Import Bytes BytesFacts Base64 Base64Facts Utf8 Utf8Facts Json JsonFacts Value ValueFacts Types Serde SerdeFacts
  Message Attach ChaCha Sha256 Aead Envelope Spec SpecFacts DecodeFacts PlainFacts CodecFacts SetterFacts SpecText CryptoLaws Examples PropPlain
  SpecSign HeaderFacts SignFacts SignFacts2 PropSign SpecSeal SealFacts SealFacts2 SealFacts3 PropSeal SpecRoute RouteFacts PropRoute KeyFacts PropKey AeadFacts AeadFacts2 SignSize PrimFacts3
  PropAead Float PropFloat SpecEnv SameFacts3 Curve CurveFacts PropCurve PropWhole.
Import ListNotations.
Local Open Scope nat_scope.
Local Open Scope string_scope.

(** ** What the recipients do, who know their own secrets and the public key of the sender *)

(** The entry for the recipient [dest] with the secret [rsk], made with his own half of the key agreement with the holder of [public]. *)
Definition own_entry (E : env) (rr : rec_rand) (a : crypto_algorithm) (cek public dest rsk : string) : option recipient :=
  let kek := kek_of (x_dh E (rr_esk rr) (x_pub E rsk)) (x_dh E rsk public) a in
  match wrap_enc E a kek (rr_iv rr (wrap_len a)) "" cek with
  | Some c =>
      let n := String.length c - 16 in
      Some (cek_recipient E rr dest (wrap_ka a) (rr_iv rr (wrap_len a)) (take n c) (drop n c))
  | None => None
  end.
Fixpoint own_entries (E : env) (rnd : nat -> rec_rand) (a : crypto_algorithm) (cek public : string) (i : nat) (dests secrets : list string) : option (list recipient) :=
  match dests, secrets with
  | d :: ds, s :: ss =>
      match own_entry E (rnd i) a cek public d s, own_entries E rnd a cek public (S i) ds ss with
      | Some r, Some rs => Some (r :: rs)
      | _, _ => None
      end
  | [], [] => Some []
  | _, _ => None
  end.
(** An envelope from the holder of [public], without his secret. *)
Definition made (E : env) (rnd : seal_rand) (m : message) (a : crypto_algorithm) (cek public : string) (secrets : list string) : option string :=
  match own_entries E (sr_rec rnd) a cek public 0 (dh_to (m_did m)) secrets with
  | Some rs =>
      match encrypt (sr_iv rnd) (with_recipients m (Some rs)) (encryptor E a) cek with
      | Ok text => Some text
      | _ => None
      end
  | None => None
  end.
(** The secrets belong to the keys for which the message is sealed. *)
Definition secrets_of (E : env) (m : message) (keys : option (list (option string))) (secrets : list string) : Prop :=
  List.length secrets = List.length (dh_to (m_did m)) /\ Forall (fun s => String.length s = 32) secrets /\
  forall k dest s, nth_error (dh_to (m_did m)) k = Some dest -> nth_error secrets k = Some s -> known_key E dest (given_key keys k) (x_pub E s).

(** ** Facts *)

Lemma own_entry_iff : forall E rr m sk dest cek pk a rsk r, crypto_ok E -> usable a -> jh_alg (m_jwm m) = Some (wrap_name a) ->
  String.length sk = 32 -> String.length rsk = 32 -> String.length (rr_esk rr) = 32 -> String.length (rr_iv rr (wrap_len a)) = wrap_len a ->
  known_key E dest pk (x_pub E rsk) ->
  (encrypt_cek E rr m sk dest cek pk = Ok r <-> own_entry E rr a cek (x_pub E sk) dest rsk = Some r).
Proof.
  intros E rr m sk dest cek pk a rsk r HC HU HA LS LR LE LI HK. pose proof (co_dh E HC) as HD. pose proof (dh_len E HD rsk LR) as LP.
  unfold own_entry. cbv zeta. rewrite (dh_comm E HD rsk sk LR LS). split; intros H.
  - apply encrypt_cek_ok in H. destruct H as [a' [key [c [HU' [HA' [HK' [_ [_ [_ [_ [HW [_ ->]]]]]]]]]]]].
    assert (a' = a) by (rewrite HA in HA'; destruct a, a'; cbn in HA'; congruence). subst a'. pose proof (known_key_fun E dest pk _ _ HK' HK). subst key.
    rewrite !take_all in HW by lia. rewrite HW. reflexivity.
  - destruct (wrap_enc E a _ _ "" cek) as [c|] eqn:EW; [|discriminate]. injection H as <-. pose proof (wrap_tag E a _ _ _ _ c HC EW) as H16.
    apply (encrypt_cek_total E rr m sk dest cek pk a (x_pub E rsk) c); auto; try lia. rewrite !take_all by lia. exact EW.
Qed.
Lemma own_entries_iff : forall E rnd m sk a public, public = x_pub E sk -> crypto_ok E -> usable a -> jh_alg (m_jwm m) = Some (wrap_name a) -> String.length sk = 32 ->
  (forall i, String.length (rr_esk (rnd i)) = 32) -> (forall i n, String.length (rr_iv (rnd i) n) = n) ->
  forall ds ps ss i rs, List.length ps = List.length ds -> List.length ss = List.length ds -> Forall (fun s => String.length s = 32) ss ->
  (forall k dest s, nth_error ds k = Some dest -> nth_error ss k = Some s -> known_key E dest (nth k ps None) (x_pub E s)) ->
  (seal_loop E rnd m sk i ds ps = Ok rs <-> own_entries E rnd a seal_cek public i ds ss = Some rs).
Proof.
  intros E rnd m sk a public -> HC HU HA LS A1 A2. induction ds as [|d ds IH]; intros [|p ps] [|s ss] i rs HL1 HL2 HF HK; try discriminate; cbn [seal_loop own_entries].
  - split; intros H; injection H as <-; reflexivity.
  - injection HL1 as HL1. injection HL2 as HL2. apply Forall_cons_iff in HF. destruct HF as [HF1 HF].
    assert (HE : forall r, encrypt_cek E (rnd i) m sk d seal_cek p = Ok r <-> own_entry E (rnd i) a seal_cek (x_pub E sk) d s = Some r).
    { intros r. apply own_entry_iff; auto. exact (HK 0 d s eq_refl eq_refl). }
    assert (HR : forall rs', seal_loop E rnd m sk (S i) ds ps = Ok rs' <-> own_entries E rnd a seal_cek (x_pub E sk) (S i) ds ss = Some rs').
    { intros rs'. apply IH; auto. intros k dest s' H1 H2. exact (HK (S k) dest s' H1 H2). }
    split; intros H.
    + destruct (encrypt_cek E (rnd i) m sk d seal_cek p) as [r| |]; [|discriminate|discriminate]. cbn [rbind] in H.
      destruct (seal_loop E rnd m sk (S i) ds ps) as [rs'| |]; [|discriminate|discriminate]. cbn [rbind] in H. apply ok_inj in H. subst rs.
      rewrite (proj1 (HE r) eq_refl), (proj1 (HR rs') eq_refl). reflexivity.
    + destruct (own_entry E (rnd i) a seal_cek (x_pub E sk) d s) as [r|]; [|discriminate]. destruct (own_entries E rnd a seal_cek (x_pub E sk) (S i) ds ss) as [rs'|]; [|discriminate].
      injection H as <-. rewrite (proj2 (HE r) eq_refl). cbn [rbind]. rewrite (proj2 (HR rs') eq_refl). reflexivity.
Qed.
Lemma made_iff : forall E rnd m sk keys a secrets text, crypto_ok E -> rand_ok rnd -> usable a -> jh_alg (m_jwm m) = Some (wrap_name a) -> String.length sk = 32 ->
  dh_to (m_did m) <> [] -> (m_flat_jwe m = true -> List.length (dh_to (m_did m)) = 1) -> (forall l, keys = Some l -> List.length l = List.length (dh_to (m_did m))) ->
  secrets_of E m keys secrets ->
  (seal E rnd m sk keys = Ok text <-> made E rnd m a seal_cek (x_pub E sk) secrets = Some text).
Proof.
  intros E rnd m sk keys a secrets text HC [A1 A2 A3] HU HA LS HTo HF HKL [S1 [S2 S3]]. unfold seal, made. rewrite LS. cbn [Nat.eqb negb]. set (to := dh_to (m_did m)) in *.
  assert (HP : exists pks, match keys with Some l => if negb (List.length l =? List.length to)%nat then Err (EGeneric "`to` and `recipient_public_keys` must have same length") else Ok l
                 | None => Ok (repeat None (List.length to)) end = Ok pks /\ List.length pks = List.length to /\ (forall k, nth k pks None = given_key keys k)).
  { destruct keys as [l|].
    - rewrite (HKL l eq_refl), Nat.eqb_refl. exists l. split; [reflexivity|]. split; [now apply HKL|reflexivity].
    - exists (repeat None (List.length to)). split; [reflexivity|]. split; [apply repeat_length|intros k; apply nth_repeat_none]. }
  destruct HP as [pks [-> [HPL HPN]]]. cbn [rbind].
  destruct (Nat.eqb_spec (List.length to) 0) as [H0|_]; [destruct to; [congruence|discriminate]|].
  assert (HFl : (m_flat_jwe m && (1 <? List.length to)%nat)%bool = false).
  { destruct (m_flat_jwe m); [|reflexivity]. rewrite HF by reflexivity. reflexivity. }
  rewrite HFl.
  assert (HR : forall rs, seal_loop E (sr_rec rnd) m sk 0 to pks = Ok rs <-> own_entries E (sr_rec rnd) a seal_cek (x_pub E sk) 0 to secrets = Some rs).
  { intros rs. apply own_entries_iff; auto. intros k dest s H1 H2. rewrite HPN. exact (S3 k dest s H1 H2). }
  assert (HCA : crypto_alg_of (wrap_name a) = Ok a) by (apply crypto_alg_of_ok; now split).
  assert (HCr : forall rs, crypter_of (m_jwm (with_recipients m (Some rs))) = Ok a).
  { intros rs. unfold crypter_of. change (m_jwm (with_recipients m (Some rs))) with (m_jwm m). rewrite HA. exact HCA. }
  split; intros H.
  - destruct (seal_loop E (sr_rec rnd) m sk 0 to pks) as [rs| |]; [|discriminate|discriminate]. cbn [rbind] in H. rewrite (proj1 (HR rs) eq_refl).
    rewrite HCr in H. cbn [rbind] in H. rewrite H. reflexivity.
  - destruct (own_entries E (sr_rec rnd) a seal_cek (x_pub E sk) 0 to secrets) as [rs|]; [|discriminate]. rewrite (proj2 (HR rs) eq_refl). cbn [rbind].
    rewrite HCr. cbn [rbind]. destruct (encrypt _ _ _ seal_cek) as [t| |]; [|discriminate|discriminate]. injection H as ->. reflexivity.
Qed.
Lemma made_total : forall E rnd m sk alg a secrets, crypto_ok E -> crypto_total E -> rand_ok rnd -> jh_alg (m_jwm m) = Some alg -> In (alg, a) wrap_table ->
  dh_to (m_did m) <> [] -> (m_flat_jwe m = true -> List.length (dh_to (m_did m)) = 1) ->
  List.length secrets = List.length (dh_to (m_did m)) -> Forall (fun s => String.length s = 32) secrets -> String.length sk = 32 ->
  exists text, made E rnd m a seal_cek (x_pub E sk) secrets = Some text.
Proof.
  intros E rnd m sk alg a secrets HC HT HR HA HI HTo HF HL HS LS. apply crypto_alg_of_table, crypto_alg_of_ok in HI. destruct HI as [HU ->].
  set (keys := Some (map (fun s => Some (x_pub E s)) secrets)).
  assert (HG : forall k s, nth_error secrets k = Some s -> given_key keys k = Some (x_pub E s)).
  { intros k s H. unfold keys, given_key. apply nth_error_nth. rewrite nth_error_map, H. reflexivity. }
  assert (HKL : forall l, keys = Some l -> List.length l = List.length (dh_to (m_did m))).
  { intros l H. unfold keys in H. injection H as <-. now rewrite map_length. }
  destruct (seal_total E rnd m sk keys a) as [text HSe]; auto.
  - intros k dest HN. destruct (nth_error secrets k) as [s|] eqn:ES.
    + exists (x_pub E s). split; [left; now apply HG|]. rewrite Forall_forall in HS. rewrite (dh_len E (co_dh E HC)); [lia|]. apply HS. eapply nth_error_In. exact ES.
    + apply nth_error_None in ES. rewrite HL in ES. apply nth_error_None in ES. congruence.
  - exists text. apply (made_iff E rnd m sk keys a secrets text); auto. split; [exact HL|]. split; [exact HS|]. intros k dest s _ H2. left. now apply HG.
Qed.

(** ** C76 *)

(** Whatever text the sender makes, the recipients together, or the only one, could have made: an envelope is no proof to others of who made it. *)
Theorem C76_deniable : exists cek, forall E rnd m sk keys text alg a secrets,
  crypto_ok E -> rand_ok rnd -> jh_alg (m_jwm m) = Some alg -> In (alg, a) wrap_table -> secrets_of E m keys secrets ->
  seal E rnd m sk keys = Ok text -> made E rnd m a cek (x_pub E sk) secrets = Some text.
Proof.
  exists seal_cek. intros E rnd m sk keys text alg a secrets HC HR HA HI HS H. apply crypto_alg_of_table, crypto_alg_of_ok in HI. destruct HI as [HU ->].
  pose proof (seal_ok E rnd m sk keys text H) as [H1 [H2 [H3 [H4 _]]]]. now apply (made_iff E rnd m sk keys a secrets text).
Qed.
(** Who holds the secret of a recipient can make messages of any sender for that recipient, of whom only the public key is needed; they are received
    as if they came from that sender. With good arguments this always succeeds. *)
Theorem C76_impersonation : exists cek,
  (forall E rnd m sk alg a secrets, crypto_ok E -> crypto_total E -> rand_ok rnd -> jh_alg (m_jwm m) = Some alg -> In (alg, a) wrap_table ->
   dh_to (m_did m) <> [] -> (m_flat_jwe m = true -> List.length (dh_to (m_did m)) = 1) ->
   List.length secrets = List.length (dh_to (m_did m)) -> Forall (fun s => String.length s = 32) secrets -> String.length sk = 32 ->
   exists text, made E rnd m a cek (x_pub E sk) secrets = Some text) /\
  (forall E rnd m sk key text alg a dest rsk signing from,
   env_ok E -> crypto_ok E -> rand_ok rnd -> sendable E m -> few_custom (m_jwm m) -> avoids envelope_names (dh_other (m_did m)) -> jh_typ (m_jwm m) <> DidCommJws ->
   jh_alg (m_jwm m) = Some alg -> In (alg, a) wrap_table -> dh_from (m_did m) = Some from -> dh_to (m_did m) = [dest] ->
   String.length rsk = 32 -> String.length sk = 32 -> key = x_pub E sk ->
   made E rnd m a cek key [rsk] = Some text ->
   exists m', receive E text (Some rsk) (Some key) signing = Ok m' /\ received m m').
Proof.
  exists seal_cek. split; [exact made_total|]. intros E rnd m sk key text alg a dest rsk signing from HE HC HR HS HF HAv HT HA HI HFr HTo LR LS -> H.
  pose proof HI as HI'. apply crypto_alg_of_table, crypto_alg_of_ok in HI'. destruct HI' as [HU ->].
  assert (HSe : seal E rnd m sk (Some [Some (x_pub E rsk)]) = Ok text).
  { apply (made_iff E rnd m sk (Some [Some (x_pub E rsk)]) a [rsk] text); auto.
    - rewrite HTo. discriminate.
    - intros _. rewrite HTo. reflexivity.
    - intros l G. injection G as <-. rewrite HTo. reflexivity.
    - unfold secrets_of. rewrite HTo. split; [reflexivity|]. split; [constructor; [exact LR|constructor]|].
      intros [|k] d s G1 G2; [|destruct k; discriminate]. cbn in G2. injection G2 as <-. now left. }
  apply (C12_seal_receive E rnd m sk [Some (x_pub E rsk)] text 0 dest rsk signing from); auto.
  - rewrite HTo. reflexivity.
  - apply closed_first.
Qed.
(** The same with X25519 and the ciphers as the crate computes them. *)
Theorem C76_real : exists cek, forall E rnd m sk keys text alg a secrets,
  orders_ok E -> rand_ok rnd -> jh_alg (m_jwm m) = Some alg -> In (alg, a) wrap_table ->
  List.length secrets = List.length (dh_to (m_did m)) -> Forall (fun s => String.length s = 32) secrets ->
  (forall k dest s, nth_error (dh_to (m_did m)) k = Some dest -> nth_error secrets k = Some s -> known_key E dest (given_key keys k) (x25519_base s)) ->
  seal (whole E) rnd m sk keys = Ok text -> made (whole E) rnd m a cek (x25519_base sk) secrets = Some text.
Proof.
  destruct C76_deniable as [cek HX]. exists cek. intros E rnd m sk keys text alg a secrets HO HR HA HI HL HS HK H. destruct (C69_lawful E HO) as [_ HC].
  apply (HX (whole E) rnd m sk keys text alg a secrets HC HR HA HI); [|exact H]. split; [exact HL|]. split; [exact HS|exact HK].
Qed.

(** Bob and Carol make the envelope of Alice; Bob alone makes another one in her name. *)
Lemma ex_secrets : forall a, secrets_of toy (ex_jwe a) (Some ex_keys) [bob_key; carol_key].
Proof.
  intros a. split; [reflexivity|]. split; [repeat constructor|].
  intros [|[|k]] dest s H1 H2; cbn in H2; [| |destruct k; discriminate]; injection H2 as <-; now left.
Qed.
Example C76_example : forall a, In a [XC20P; A256GCM] -> exists cek text, seal toy ex_rand (ex_jwe a) alice_key (Some ex_keys) = Ok text /\
  made toy ex_rand (ex_jwe a) a cek (x_pub toy alice_key) [bob_key; carol_key] = Some text.
Proof.
  intros a HA. destruct C76_deniable as [cek HX].
  assert (HI : In (wrap_name a, a) wrap_table). { apply crypto_alg_of_table, crypto_alg_of_ok. split; [|reflexivity]. intros ->. destruct HA as [H|[H|[]]]; discriminate. }
  assert (HA' : jh_alg (m_jwm (ex_jwe a)) = Some (wrap_name a)) by (destruct HA as [<-|[<-|[]]]; reflexivity).
  destruct (ex_seals a HA) as [text HT]. exists cek, text. split; [exact HT|].
  exact (HX toy ex_rand (ex_jwe a) alice_key (Some ex_keys) text (wrap_name a) a [bob_key; carol_key] toy_crypto ex_rand_ok HA' HI (ex_secrets a) HT).
Qed.
Definition ex_claimed : message := with_did (ex_jwe XC20P) (dh_with_to (m_did (ex_jwe XC20P)) ["did:toy:bob"]).
Lemma ex_claimed_sendable : sendable toy ex_claimed.
Proof. unfold ex_claimed, ex_jwe, ex_one, ex_one_jwk, ex_did, ex_body, ex_attachment. send_msg. Qed.
Example C76_example_claimed : exists cek text m', made toy ex_rand ex_claimed XC20P cek (x_pub toy alice_key) [bob_key] = Some text /\
  receive toy text (Some bob_key) (Some (x_pub toy alice_key)) None = Ok m' /\ received ex_claimed m' /\ dh_from (m_did ex_claimed) = Some "did:toy:alice".
Proof.
  destruct C76_impersonation as [cek [HP HX]].
  assert (HI : In (wrap_name XC20P, XC20P) wrap_table) by (apply crypto_alg_of_table, crypto_alg_of_ok; split; [discriminate|reflexivity]).
  destruct (HP toy ex_rand ex_claimed alice_key (wrap_name XC20P) XC20P [bob_key]) as [text HM].
  - exact toy_crypto.
  - exact toy_total.
  - exact ex_rand_ok.
  - reflexivity.
  - exact HI.
  - discriminate.
  - discriminate.
  - reflexivity.
  - repeat constructor.
  - apply srepeat_length.
  - exists cek, text.
    destruct (HX toy ex_rand ex_claimed alice_key (x_pub toy alice_key) text (wrap_name XC20P) XC20P "did:toy:bob" bob_key None "did:toy:alice") as [m' [H1 H2]].
    + exact toy_env.
    + exact toy_crypto.
    + exact ex_rand_ok.
    + exact ex_claimed_sendable.
    + apply (ex_jwe_few XC20P).
    + exact ex_one_avoids.
    + apply (ex_jwe_typ XC20P).
    + reflexivity.
    + exact HI.
    + reflexivity.
    + reflexivity.
    + apply srepeat_length.
    + apply srepeat_length.
    + reflexivity.
    + exact HM.
    + exists m'. split; [exact HM|]. split; [exact H1|]. split; [exact H2|reflexivity].
Qed.

Print Assumptions C76_deniable.
Print Assumptions C76_impersonation.
Print Assumptions C76_real.
