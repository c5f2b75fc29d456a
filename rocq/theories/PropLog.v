(** Secrets in the log: C77. *)

From Coq Require Import Ascii String Arith ZArith NArith List Bool Permutation Lia.
From Verif Require Import Bytes BytesFacts Base64 Base64Facts Utf8 Utf8Facts Json JsonFacts Value ValueFacts Types Serde SerdeFacts
  Message Attach ChaCha Sha256 Aead Envelope Log Spec SpecFacts DecodeFacts PlainFacts CodecFacts SetterFacts SpecText CryptoLaws Examples PropPlain
  SpecSign HeaderFacts SignFacts SignFacts2 PropSign SpecSeal SealFacts SealFacts2 SealFacts3 PropSeal SpecRoute RouteFacts PropRoute KeyFacts PropKey.
Import ListNotations.
Local Open Scope nat_scope.
Local Open Scope string_scope.

(** ** Somebody who reads the log *)

(** Decimal numbers, separated by a comma and a space and closed by a bracket, as bytes; [n] is what has been read of the first one. *)
Fixpoint read_numbers (n : N) (s : string) : option string :=
  match s with
  | "" => None
  | String c r =>
      if is_digit c then read_numbers (n * 10 + (code c - 48)) r
      else if Ascii.eqb c "]" then Some (String (chr n) "")
      else if Ascii.eqb c "," then
        match r with
        | String " " r' => match read_numbers 0 r' with Some x => Some (String (chr n) x) | None => None end
        | _ => None
        end
      else None
  end.
Fixpoint without_prefix (p s : string) : option string :=
  match p, s with
  | "", _ => Some s
  | String a p', String b s' => if Ascii.eqb a b then without_prefix p' s' else None
  | _, _ => None
  end.
(** The first line that starts with a secret. *)
Fixpoint secret_in (log : list string) : option string :=
  match log with
  | [] => None
  | line :: rest =>
      match without_prefix "sk: [" line with
      | Some r => match read_numbers 0 r with Some s => Some s | None => secret_in rest end
      | None => secret_in rest
      end
  end.

(** ** Facts *)

Lemma read_digits : forall d n s, sall is_digit d = true -> read_numbers n (d ++ s) = read_numbers (dec_val n d) s.
Proof.
  induction d as [|c d IH]; intros n s H; [reflexivity|]. cbn [sall] in H. apply andb_true_iff in H. destruct H as [H1 H2].
  cbn [append read_numbers dec_val]. rewrite H1. now apply IH.
Qed.
Lemma read_items : forall s rest, s <> "" -> read_numbers 0 (debug_items s ++ "]" ++ rest) = Some s.
Proof.
  induction s as [|c s IH]; intros rest H; [congruence|]. clear H. destruct s as [|c' s].
  - cbn [debug_items]. rewrite read_digits by apply dec_of_N_digits. rewrite dec_of_N_val. cbn. now rewrite chr_code.
  - assert (E : debug_items (String c (String c' s)) = dec_of_N (code c) ++ ", " ++ debug_items (String c' s)) by reflexivity. rewrite E. clear E.
    rewrite !sapp_assoc. rewrite read_digits by apply dec_of_N_digits. rewrite dec_of_N_val.
    assert (HI : read_numbers 0 (debug_items (String c' s) ++ "]" ++ rest) = Some (String c' s)) by (apply IH; discriminate).
    revert HI. generalize (debug_items (String c' s) ++ "]" ++ rest). intros t HI. cbn [append read_numbers].
    change (is_digit ",") with false. cbv iota. change (Ascii.eqb "," "]") with false. change (Ascii.eqb "," ",") with true. cbv iota. rewrite HI, chr_code. reflexivity.
Qed.
Lemma secret_app : forall a b, secret_in (a ++ b)%list = match secret_in a with Some x => Some x | None => secret_in b end.
Proof.
  induction a as [|l a IH]; intros b; [reflexivity|]. cbn [app secret_in]. destruct (without_prefix "sk: [" l) as [r|]; [|apply IH]. destruct (read_numbers 0 r); [reflexivity|apply IH].
Qed.
(** A line that starts otherwise. *)
Definition other_line (l : string) : Prop := without_prefix "sk: [" l = None.
Lemma secret_skip : forall l log, other_line l -> secret_in (l :: log) = secret_in log.
Proof. intros l log H. cbn [secret_in]. now rewrite H. Qed.
Lemma secret_kek : forall F E did sk ze alg pk x, sk <> "" -> shared_for E sk did pk = Ok x -> secret_in (log_kek F E did sk ze alg pk) = Some sk.
Proof.
  intros F E did sk ze alg pk x HN H. unfold log_kek. rewrite H. cbn [secret_in].
  assert (HW : forall t, without_prefix "sk: [" ("sk: " ++ debug_bytes sk ++ t) = Some (debug_items sk ++ "]" ++ t)).
  { intros t. unfold debug_bytes. rewrite !sapp_assoc. reflexivity. }
  rewrite HW. rewrite read_items by exact HN. reflexivity.
Qed.
Lemma secret_encrypt_cek : forall F E rr m sk dest cek pk r, encrypt_cek E rr m sk dest cek pk = Ok r -> secret_in (log_encrypt_cek F E rr m sk dest pk) = Some sk.
Proof.
  intros F E rr m sk dest cek pk r H. pose proof (encrypt_cek_ok E rr m sk dest cek pk r H) as [_ [_ [_ [_ [_ [_ [_ [LS _]]]]]]]].
  assert (HN : sk <> "") by (intros ->; cbn in LS; lia). unfold encrypt_cek in H. unfold log_encrypt_cek. rewrite secret_skip by reflexivity.
  destruct (jh_alg (m_jwm m)) as [alg|]; [|discriminate]. cbn [oerr rbind] in H. rewrite secret_skip by reflexivity.
  destruct (shared_for E (rr_esk rr) dest pk) as [ze| |]; [|discriminate|discriminate]. cbn [rbind] in H. rewrite secret_skip by reflexivity. rewrite secret_app.
  unfold generate_kek in H. destruct (shared_for E sk dest pk) as [x| |] eqn:ES; [|discriminate|discriminate]. now rewrite (secret_kek F E dest sk ze alg pk x HN ES).
Qed.
Lemma secret_decrypt_cek : forall F E e sk r pk k, decrypt_cek E e sk r pk = Ok k -> secret_in (log_decrypt_cek F E e sk r pk) = Some sk.
Proof.
  intros F E e sk r pk k H. pose proof (decrypt_cek_ok E e sk r pk k H) as [_ [_ [_ [_ [_ [_ [_ [_ [_ [_ [_ [LS _]]]]]]]]]]]].
  assert (HN : sk <> "") by (intros ->; cbn in LS; lia). unfold decrypt_cek in H. unfold log_decrypt_cek. rewrite secret_skip by reflexivity.
  destruct (jwe_get e jh_alg) as [alg|]; [|discriminate]. cbn [oerr rbind] in H. rewrite secret_skip by reflexivity.
  destruct (jwe_get e jh_skid) as [skid|]; [|discriminate]. cbn [oerr rbind] in H |- *. destruct (jk_epk (rc_header r)) as [ek|]; [|discriminate]. cbn [oerr rbind] in H |- *.
  destruct (b64_decode (ep_x ek)) as [epub|]; [|discriminate]. cbn [oerr rbind] in H |- *. destruct (negb (String.length epub =? 32)%nat); [discriminate|].
  destruct (arr32 sk) as [s| |]; [|discriminate|discriminate]. cbn [rbind] in H |- *. rewrite secret_skip by reflexivity. rewrite secret_app.
  unfold generate_kek in H. destruct (shared_for E sk skid pk) as [x| |] eqn:ES; [|discriminate|discriminate]. now rewrite (secret_kek F E skid sk _ alg pk x HN ES).
Qed.
(** An entry that does not decrypt shows the secret or none. *)
Lemma secret_decrypt_some : forall F E e sk r pk, sk <> "" -> secret_in (log_decrypt_cek F E e sk r pk) = None \/ secret_in (log_decrypt_cek F E e sk r pk) = Some sk.
Proof.
  intros F E e sk r pk HN. unfold log_decrypt_cek. rewrite secret_skip by reflexivity. destruct (jwe_get e jh_alg) as [alg|]; [|now left]. rewrite secret_skip by reflexivity.
  destruct (rbind _ _) as [[skid ze]| |]; [|now left|now left]. rewrite secret_skip by reflexivity. rewrite secret_app.
  destruct (shared_for E sk skid pk) as [x| |] eqn:ES.
  - right. now rewrite (secret_kek F E skid sk ze alg pk x HN ES).
  - left. unfold log_kek, generate_kek. rewrite ES. reflexivity.
  - left. unfold log_kek, generate_kek. rewrite ES. reflexivity.
Qed.
Lemma secret_find : forall F E e sk pk k l acc, sk <> "" -> (forall x, acc <> Ok x) -> find_cek E e sk pk acc l = Ok k -> secret_in (log_find_cek F E e sk pk l) = Some sk.
Proof.
  intros F E e sk pk k. induction l as [|r l IH]; intros acc HN HA H; cbn [find_cek] in H; [now elim (HA k)|]. cbn [log_find_cek]. rewrite secret_app.
  destruct (decrypt_cek E e sk r pk) as [x|x|] eqn:ED; [|destruct (secret_decrypt_some F E e sk r pk HN) as [->| ->]; [|reflexivity]|discriminate].
  - now rewrite (secret_decrypt_cek F E e sk r pk x ED).
  - apply (IH (Err x)); [exact HN|discriminate|exact H].
Qed.
Lemma log_same : forall F E rr m m' sk dest cek pk, jh_alg (m_jwm m) = jh_alg (m_jwm m') ->
  log_encrypt_cek F E rr m sk dest pk = log_encrypt_cek F E rr m' sk dest pk /\ encrypt_cek E rr m sk dest cek pk = encrypt_cek E rr m' sk dest cek pk.
Proof. intros F E rr m m' sk dest cek pk H. unfold log_encrypt_cek, encrypt_cek. rewrite H. split; reflexivity. Qed.
Lemma log_loop_same : forall F E rnd m m' sk, jh_alg (m_jwm m) = jh_alg (m_jwm m') -> forall ds ps i, log_loop F E rnd m sk i ds ps = log_loop F E rnd m' sk i ds ps.
Proof.
  intros F E rnd m m' sk H. induction ds as [|d ds IH]; intros [|p ps] i; try reflexivity. cbn [log_loop].
  destruct (log_same F E (rnd i) m m' sk d seal_cek p H) as [-> ->]. destruct (encrypt_cek E (rnd i) m' sk d seal_cek p); [|reflexivity|reflexivity]. now rewrite IH.
Qed.
Lemma seal_log : forall F E rnd m sk keys text, seal E rnd m sk keys = Ok text -> secret_in (log_seal F E rnd m sk keys) = Some sk.
Proof.
  intros F E rnd m sk keys text H. unfold seal in H. unfold log_seal. destruct (negb (String.length sk =? 32)%nat); [discriminate|]. cbv zeta.
  set (to := dh_to (m_did m)) in *.
  assert (HX : forall pks, (if (List.length to =? 0)%nat then Err ENoJweRecipient
      else if (m_flat_jwe m && (1 <? List.length to)%nat)%bool then Err (EGeneric "flat JWE serialization only supports a single `to`") else
      let? rs := seal_loop E (sr_rec rnd) m sk 0 to pks in
      let m0 := with_recipients m (Some rs) in let? a := crypter_of (m_jwm m0) in encrypt (sr_iv rnd) m0 (encryptor E a) seal_cek) = Ok text ->
    List.length pks = List.length to ->
    secret_in (("sealing message with shared_key: " ++ debug_bytes seal_cek) ::
      (if (List.length to =? 0)%nat then [] else if (m_flat_jwe m && (1 <? List.length to)%nat)%bool then [] else log_loop F E (sr_rec rnd) m sk 0 to pks)) = Some sk).
  { intros pks G HL. rewrite secret_skip by reflexivity. destruct (List.length to =? 0)%nat eqn:E0; [discriminate|].
    destruct (m_flat_jwe m && (1 <? List.length to)%nat)%bool; [discriminate|]. destruct to as [|d to]; [discriminate|]. destruct pks as [|p pks]; [discriminate|].
    cbn [seal_loop] in G. cbn [log_loop]. destruct (encrypt_cek E (sr_rec rnd 0) m sk d seal_cek p) as [r| |] eqn:EC; [|discriminate|discriminate].
    rewrite secret_app. now rewrite (secret_encrypt_cek F E (sr_rec rnd 0) m sk d seal_cek p r EC). }
  destruct keys as [l|].
  - destruct (List.length l =? List.length to)%nat eqn:EL; cbn [negb] in H |- *; [|discriminate]. cbn [rbind] in H. apply HX; [exact H|now apply Nat.eqb_eq].
  - cbn [rbind] in H. apply HX; [exact H|apply repeat_length].
Qed.

(** ** C77 *)

(** Whenever a message is sealed, the log has the secret key of the sender, in plain text, however strings are escaped. *)
Theorem C77_seal : forall F E rnd m sk keys text, seal E rnd m sk keys = Ok text -> secret_in (log_seal F E rnd m sk keys) = Some sk.
Proof. exact seal_log. Qed.
Theorem C77_seal_signed : forall F E rnd m sk keys sa ssk text, seal_signed E rnd m sk keys sa ssk = Ok text -> secret_in (log_seal_signed F E rnd m sk keys sa ssk) = Some sk.
Proof.
  intros F E rnd m sk keys sa ssk text H. unfold seal_signed in H. unfold log_seal_signed.
  destruct (sign (as_jws m sa) (signer E sa) ssk) as [signed| |]; [|discriminate|discriminate]. cbn [rbind] in H |- *.
  destruct (oerr (parse signed) ESerde) as [j| |]; [|discriminate|discriminate]. cbn [rbind] in H |- *.
  destruct (oerr (value_of (rt E 0) max_depth j) ESerde) as [b| |]; [|discriminate|discriminate]. cbn [rbind] in H. exact (seal_log F E rnd _ sk keys text H).
Qed.
(** Whenever an envelope with recipients is opened, the log has the secret key of the one who opens it. *)
Theorem C77_receive : forall F E text e sk sender signing m', get_message_type (rt E 0) text = Ok DidCommJwe -> jwe_from_str (rt E 1) text = Some e -> sk <> "" ->
  receive E text (Some sk) sender signing = Ok m' ->
  secret_in (log_receive F E text (Some sk) sender) = match jwe_recipients e with Some _ => Some sk | None => None end.
Proof.
  intros F E text e sk sender signing m' HT HJ HN H. unfold receive in H. unfold log_receive. rewrite HT in H |- *. cbn [rbind is_jwe_type oerr] in H |- *.
  destruct (receive_jwe E text sk sender) as [t| |] eqn:ER; [|discriminate|discriminate]. clear H. unfold receive_jwe in ER. unfold log_receive_jwe. rewrite HJ in ER |- *. cbn [oerr rbind] in ER |- *.
  destruct (oerr (jwe_get e jh_alg) (EGeneric "missing algorithm in JWE header(s)")) as [alg| |]; [|discriminate|discriminate]. cbn [rbind] in ER |- *.
  destruct (match sender with Some k => Ok k | None => _ end) as [pk| |]; [|discriminate|discriminate]. cbn [rbind] in ER |- *.
  destruct (arr32 sk) as [s| |]; [|discriminate|discriminate]. cbn [rbind] in ER |- *. destruct (arr32 pk) as [p| |]; [|discriminate|discriminate]. cbn [rbind] in ER |- *.
  destruct (crypto_alg_of alg) as [a| |]; [|discriminate|discriminate]. cbn [rbind] in ER |- *. destruct (jwe_recipients e) as [l|]; [|reflexivity].
  destruct (find_cek E e sk sender (Err (EGeneric "no recipients found in JWE")) l) as [k| |] eqn:EF; [|discriminate|discriminate].
  apply (secret_find F E e sk sender k l (Err (EGeneric "no recipients found in JWE"))); [exact HN|discriminate|exact EF].
Qed.
(** So every recipient who opens a sealed message logs his secret. *)
Theorem C77_delivered : forall F E rnd m sk keys text i dest rsk sender from,
  env_ok E -> crypto_ok E -> rand_ok rnd -> sendable E m -> few_custom (m_jwm m) -> avoids envelope_names (dh_other (m_did m)) ->
  jh_typ (m_jwm m) <> DidCommJws -> dh_from (m_did m) = Some from -> seal E rnd m sk keys = Ok text -> nth_error (dh_to (m_did m)) i = Some dest -> String.length rsk = 32 ->
  known_key E dest (given_key keys i) (x_pub E rsk) -> known_key E from sender (x_pub E sk) -> others_closed E rnd m sk keys rsk i ->
  secret_in (log_receive F E text (Some rsk) sender) = Some rsk.
Proof.
  intros F E rnd m sk keys text i dest rsk spk from HE HC HR HS HF HA HT HFr HSe HN L HK HSK HB.
  destruct (seal_receive E rnd m sk keys text i dest rsk spk None from HE HC HR HS HF HA HT HFr HSe HN L HK HSK HB) as [rs0 [_ [_ [_ [H4 H5]]]]].
  apply seal_text in HSe. destruct HSe as [a [rs [sh [c [_ [_ [_ [_ [HP [_ [HG [_ [_ ->]]]]]]]]]]]]].
  pose proof (sealed_env_good (seal_header m) sh rs (take (String.length c - 16) c) (drop (String.length c - 16) c) (sr_iv rnd) (seal_header_good E m HS) HP HG) as HJ.
  destruct (jwe_round (rt E 1) _ HJ) as [_ HJ'].
  assert (HNE : rsk <> "") by (intros ->; cbn in L; lia).
  rewrite (C77_receive F E _ _ rsk spk None _ H4 HJ' HNE H5). rewrite (placed_recipients sh rs) by exact HP. reflexivity.
Qed.
(** Of the message, the log of [seal] shows nothing but the recipients and the algorithm. *)
Theorem C77_content : forall F E rnd m m' sk keys, dh_to (m_did m) = dh_to (m_did m') -> jh_alg (m_jwm m) = jh_alg (m_jwm m') -> m_flat_jwe m = m_flat_jwe m' ->
  log_seal F E rnd m sk keys = log_seal F E rnd m' sk keys.
Proof.
  intros F E rnd m m' sk keys HT HA HF. unfold log_seal. rewrite HT, HF. destruct (negb (String.length sk =? 32)%nat); [reflexivity|]. cbv zeta.
  destruct keys as [l|]; rewrite (log_loop_same F E (sr_rec rnd) m m' sk HA); reflexivity.
Qed.
(** The log of [seal_signed] does not show the signing key. *)
Theorem C77_signing_key : forall F E rnd m sk keys sa ssk sa' ssk' text text', seal_signed E rnd m sk keys sa ssk = Ok text -> seal_signed E rnd m sk keys sa' ssk' = Ok text' ->
  log_seal_signed F E rnd m sk keys sa ssk = log_seal_signed F E rnd m sk keys sa' ssk'.
Proof.
  intros F E rnd m sk keys sa ssk sa' ssk' text text' H H'. unfold seal_signed in H, H'. unfold log_seal_signed.
  destruct (sign (as_jws m sa) (signer E sa) ssk) as [signed| |]; [|discriminate|discriminate]. cbn [rbind] in H |- *.
  destruct (oerr (parse signed) ESerde) as [j| |]; [|discriminate|discriminate]. cbn [rbind] in H |- *. destruct (oerr (value_of (rt E 0) max_depth j) ESerde) as [b| |]; [|discriminate|discriminate].
  destruct (sign (as_jws m sa') (signer E sa') ssk') as [signed'| |]; [|discriminate|discriminate]. cbn [rbind] in H' |- *.
  destruct (oerr (parse signed') ESerde) as [j'| |]; [|discriminate|discriminate]. cbn [rbind] in H' |- *. destruct (oerr (value_of (rt E 0) max_depth j') ESerde) as [b'| |]; [|discriminate|discriminate].
  apply C77_content; reflexivity.
Qed.

(** The messages of C12 and C23. *)
Definition ex_formats : formats := {| f_str := fun s => s; f_key := b64_encode |}.
Example C77_example : forall a, In a [XC20P; A256GCM] -> exists text, seal toy ex_rand (ex_jwe a) alice_key (Some ex_keys) = Ok text /\
  secret_in (log_seal ex_formats toy ex_rand (ex_jwe a) alice_key (Some ex_keys)) = Some alice_key.
Proof. intros a HA. destruct (ex_seals a HA) as [text HT]. exists text. split; [exact HT|]. exact (C77_seal ex_formats toy ex_rand (ex_jwe a) alice_key (Some ex_keys) text HT). Qed.
Example C77_example_signed : forall a sa, In a [XC20P; A256GCM] -> exists text, seal_signed toy ex_rand (ex_jwe a) alice_key (Some ex_keys) sa "signing" = Ok text /\
  secret_in (log_seal_signed ex_formats toy ex_rand (ex_jwe a) alice_key (Some ex_keys) sa "signing") = Some alice_key.
Proof.
  intros a sa HA. destruct (ex_signed_seals a sa HA) as [text HT]. exists text. split; [exact HT|].
  exact (C77_seal_signed ex_formats toy ex_rand (ex_jwe a) alice_key (Some ex_keys) sa "signing" text HT).
Qed.
Example C77_example_delivered : forall a, In a [XC20P; A256GCM] -> exists text, seal toy ex_rand (ex_jwe a) alice_key (Some ex_keys) = Ok text /\
  secret_in (log_receive ex_formats toy text (Some carol_key) (Some alice_key)) = Some carol_key.
Proof.
  intros a HA. destruct (ex_seals a HA) as [text HT]. exists text. split; [exact HT|].
  apply (C77_delivered ex_formats toy ex_rand (ex_jwe a) alice_key (Some ex_keys) text 1 "did:toy:carol" carol_key (Some alice_key) "did:toy:alice").
  - exact toy_env.
  - exact toy_crypto.
  - exact ex_rand_ok.
  - apply ex_jwe_sendable.
  - apply ex_jwe_few.
  - exact ex_one_avoids.
  - apply ex_jwe_typ.
  - reflexivity.
  - exact HT.
  - reflexivity.
  - apply srepeat_length.
  - now left.
  - now left.
  - apply closed_bound. exact toy_crypto_bound.
Qed.

Print Assumptions C77_seal.
Print Assumptions C77_seal_signed.
Print Assumptions C77_receive.
Print Assumptions C77_delivered.
Print Assumptions C77_content.
Print Assumptions C77_signing_key.
