(** Sizes of the texts that are encrypted, and [seal] with the two ciphers of the crate. *)

From Coq Require Import Ascii String Arith NArith List Bool Permutation Lia.
From Verif Require Import Bytes BytesFacts Base64 Base64Facts Utf8 Json JsonFacts Value Types Serde SerdeFacts Message Attach Regex ChaCha Sha256 Aead Envelope Spec SpecFacts
  SetterFacts SpecText RegexFacts CryptoLaws SpecSign SpecSeal SealFacts SealFacts2 SealFacts3 AeadFacts.
Import ListNotations.
Local Open Scope string_scope.

(** ** Printed sizes *)

Lemma escape_size : forall s, String.length s <= String.length (escape s) <= 6 * String.length s.
Proof.
  assert (H1 : forall c, 1 <= String.length (esc_char c) <= 6) by (intros [[] [] [] [] [] [] [] []]; vm_compute; lia).
  induction s as [|c s IH]; [cbn; lia|]. cbn [escape String.length]. rewrite slen_app. specialize (H1 c). lia.
Qed.
Lemma quote_size : forall s, String.length s + 2 <= String.length (quote s) <= 6 * String.length s + 2.
Proof. intros s. unfold quote. cbn [String.length]. rewrite slen_app. cbn [String.length]. pose proof (escape_size s). lia. Qed.
Lemma commas_size : forall l, l <> [] -> String.length (commas l) + 1 = list_sum (map (fun s => String.length s + 1) l).
Proof.
  induction l as [|x l IH]; intros H; [now elim H|]. rewrite commas_cons. destruct l as [|y l]; [cbn; lia|]. rewrite slen_app. cbn [String.length].
  specialize (IH ltac:(discriminate)). cbn [map list_sum fold_right] in *. lia.
Qed.
Definition member_size (kv : string * json) : nat := String.length (quote (fst kv)) + String.length (print (snd kv)) + 2.
Lemma obj_size : forall l, l <> [] -> String.length (print (JObj l)) = list_sum (map member_size l) + 1.
Proof.
  intros l H. cbn [print String.length]. rewrite slen_app. cbn [String.length].
  assert (HC : map (fun kv => quote (fst kv) ++ String ":" (print (snd kv))) l <> []) by (destruct l; [now elim H|discriminate]). apply commas_size in HC. rewrite map_map in HC.
  erewrite (map_ext _ member_size) in HC; [lia|]. intros [k v]. cbn [fst snd]. rewrite slen_app. cbn [String.length]. unfold member_size. cbn [fst snd]. lia.
Qed.
Lemma arr_size : forall l, l <> [] -> String.length (print (JArr l)) = list_sum (map (fun v => String.length (print v) + 1) l) + 1.
Proof.
  intros l H. cbn [print String.length]. rewrite slen_app. cbn [String.length].
  assert (HC : map print l <> []) by (destruct l; [now elim H|discriminate]). apply commas_size in HC. rewrite map_map in HC. lia.
Qed.
Lemma sum_pair : forall A B (f : A -> nat) (g : B -> nat) xs ys, List.length ys = List.length xs ->
  (forall k x, nth_error xs k = Some x -> exists y, nth_error ys k = Some y /\ g y <= f x) -> list_sum (map g ys) <= list_sum (map f xs).
Proof.
  intros A B f g. induction xs as [|x xs IH]; intros [|y ys] HL H; try discriminate; [cbn; lia|]. cbn [map list_sum fold_right].
  destruct (H 0 x eq_refl) as [y' [E1 E2]]. cbn in E1. injection E1 as <-. specialize (IH ys ltac:(now injection HL) (fun k => H (S k))). unfold list_sum in *. lia.
Qed.
Lemma take_size : forall n s, String.length (take n s) <= String.length s.
Proof. induction n as [|n IH]; intros [|c s]; cbn [take String.length]; try lia. specialize (IH s). lia. Qed.
Lemma drop_size : forall n s, String.length (drop n s) <= String.length s.
Proof. induction n as [|n IH]; intros [|c s]; cbn [drop String.length]; try lia. specialize (IH s). lia. Qed.
Lemma did_size : forall s, String.length (did_of_url s) <= String.length s.
Proof. intros s. unfold did_of_url. destruct (find _ _); [apply take_size|cbn; lia]. Qed.
Lemma b64_size : forall s, String.length (b64_encode s) <= 2 * String.length s.
Proof. intros s. rewrite b64_encode_length. destruct (String.length s) as [|n]; [reflexivity|]. apply Nat.div_le_upper_bound; lia. Qed.

(** An entry of the recipient list. *)
Lemma jstr_size : forall s, String.length (print (jstr s)) <= 6 * String.length s + 2.
Proof. intros s. apply quote_size. Qed.
Lemma key_name_size : forall a, String.length (key_algorithm_name (wrap_ka a)) <= 20.
Proof. intros []; vm_compute; lia. Qed.
Lemma sum_cons : forall x l, list_sum (map member_size (x :: l)) = member_size x + list_sum (map member_size l).
Proof. reflexivity. Qed.
Lemma sum_nil : list_sum (map member_size []) = 0.
Proof. reflexivity. Qed.
Lemma sum_app : forall l l', list_sum (map member_size (l ++ l')) = list_sum (map member_size l) + list_sum (map member_size l').
Proof. intros l l'. now rewrite map_app, list_sum_app. Qed.
Lemma member_le : forall k v n, String.length (print v) <= n -> member_size (k, v) <= 6 * String.length k + n + 4.
Proof. intros k v n H. unfold member_size. cbn [fst snd]. pose proof (quote_size k). lia. Qed.
Lemma text_member_le : forall k s n, String.length s <= n -> member_size (k, jstr s) <= 6 * String.length k + 6 * n + 6.
Proof. intros k s n H. pose proof (jstr_size s). pose proof (member_le k (jstr s) (6 * n + 2)). lia. Qed.
Lemma epk_size : forall e, ep_y e = None -> String.length (ep_kty e) <= 3 -> String.length (ep_crv e) <= 6 -> String.length (ep_x e) <= 64 -> String.length (print (ser_epk e)) <= 520.
Proof.
  intros e HY HK HC HX. unfold ser_epk. rewrite HY. cbn [sopt]. rewrite obj_size by discriminate. rewrite sum_app, !sum_cons, sum_nil.
  pose proof (text_member_le "kty" _ _ HK). pose proof (text_member_le "crv" _ _ HC). pose proof (text_member_le "x" _ _ HX). cbn [String.length map list_sum fold_right] in *. lia.
Qed.
Lemma wrapped_map_size : forall (sw : bool) (x y : string), String.length x <= 48 -> String.length y <= 96 ->
  let o := map_insert "tag" y (map_insert "iv" x []) in list_sum (map member_size (smap (if sw then rev o else o))) <= 950.
Proof.
  intros sw x y HX HY o. assert (HO : o = [("iv", x); ("tag", y)]) by reflexivity. rewrite HO.
  pose proof (text_member_le "iv" _ _ HX). pose proof (text_member_le "tag" _ _ HY). destruct sw; cbn [rev app smap map fst snd list_sum fold_right String.length] in *; lia.
Qed.
Lemma entry_size : forall E rr dest a iv sealed tag, String.length (x_pub E (rr_esk rr)) = 32 -> String.length iv <= 24 -> String.length sealed <= 48 -> String.length tag <= 48 ->
  String.length (print (ser_recipient (cek_recipient E rr dest (wrap_ka a) iv sealed tag))) <= 6 * String.length dest + 2900.
Proof.
  intros E rr dest a iv sealed tag HX HI HS HT. unfold ser_recipient. rewrite obj_size by discriminate. unfold recipient_entries. rewrite !sum_cons, sum_nil.
  assert (HJ : String.length (print (ser_jwk (rc_header (cek_recipient E rr dest (wrap_ka a) iv sealed tag)))) <= 6 * String.length dest + 1900).
  { unfold ser_jwk, cek_recipient. cbv zeta. cbn [rc_header jk_kty jk_use jk_crv jk_key_ops jk_alg jk_kid jk_epk jk_other].
    rewrite obj_size by discriminate. rewrite !sum_app. cbn [sopt]. rewrite !sum_cons, !sum_nil. cbn [map].
    assert (P1 : String.length (b64_encode iv) <= 48) by (pose proof (b64_size iv); lia). assert (P2 : String.length (b64_encode tag) <= 96) by (pose proof (b64_size tag); lia).
    pose proof (wrapped_map_size (rr_swap rr) _ _ P1 P2) as P3. cbv zeta in P3.
    assert (P4 : String.length (print (ser_epk {| ep_kty := "OKP"; ep_crv := "X25519"; ep_x := b64_encode (x_pub E (rr_esk rr)); ep_y := None |})) <= 520).
    { pose proof (b64_size (x_pub E (rr_esk rr))). apply epk_size; cbn [ep_y ep_kty ep_crv ep_x String.length]; try reflexivity; lia. }
    apply (member_le "epk") in P4. pose proof (text_member_le "kid" _ _ (did_size dest)) as P5. pose proof (text_member_le "alg" _ _ (key_name_size a)) as P6.
    assert (P7 : member_size ("key_ops", JArr []) <= 6 * 7 + 2 + 4) by (apply (member_le "key_ops"); reflexivity). cbn [String.length] in *. lia. }
  apply (member_le "header") in HJ. assert (HK : String.length (rc_encrypted_key (cek_recipient E rr dest (wrap_ka a) iv sealed tag)) <= 96) by (cbn [cek_recipient rc_encrypted_key]; pose proof (b64_size sealed); lia).
  apply (text_member_le "encrypted_key") in HK. cbn [String.length] in *. lia.
Qed.

(** The message with its recipient entries, and the protected header. *)
Lemma message_size : forall m, String.length (message_json m) =
  list_sum (map member_size (jwm_entries (m_jwm m))) + list_sum (map member_size (didcomm_entries (m_did m)))
  + list_sum (map member_size (sopt "recipients" (fun l => JArr (map ser_recipient l)) (m_recipients m))) + member_size ("body", m_body m)
  + list_sum (map member_size (svec "attachments" ser_attachment (m_attachments m))) + 1.
Proof.
  intros m. unfold message_json, ser_message. rewrite obj_size by (unfold jwm_entries; discriminate). rewrite !sum_app. rewrite !sum_cons, !sum_nil. lia.
Qed.
Lemma to_size : forall m, list_sum (map (fun d => String.length d + 3) (dh_to (m_did m))) + 20 <= String.length (message_json m).
Proof.
  intros m. rewrite message_size. unfold didcomm_entries, jwm_entries. rewrite !sum_app, !sum_cons, !sum_nil.
  assert (HT : list_sum (map (fun d => String.length d + 3) (dh_to (m_did m))) <= list_sum (map member_size (svec "to" jstr (dh_to (m_did m))))).
  { destruct (dh_to (m_did m)) as [|d l]; [cbn; lia|]. cbn [svec]. rewrite sum_cons, sum_nil. unfold member_size. cbn [fst snd]. rewrite arr_size by discriminate. rewrite map_map.
    assert (HS : list_sum (map (fun d => String.length d + 3) (d :: l)) <= list_sum (map (fun x => String.length (print (jstr x)) + 1) (d :: l))).
    { apply sum_pair; [reflexivity|]. intros k x Hx. exists x. split; [exact Hx|]. pose proof (quote_size x). unfold jstr. cbn [print]. lia. }
    lia. }
  assert (HG : forall k v, String.length k + 4 <= member_size (k, v)) by (intros k v; unfold member_size; cbn [fst snd]; pose proof (quote_size k); lia).
  pose proof (HG "typ" (jstr (message_type_name (jh_typ (m_jwm m))))). pose proof (HG "id" (jstr (dh_id (m_did m)))). pose proof (HG "type" (jstr (dh_type (m_did m)))).
  pose proof (HG "from" (snull jstr (dh_from (m_did m)))). cbn [String.length] in *. lia.
Qed.
Lemma sealed_size : forall m rs, List.length rs = List.length (dh_to (m_did m)) ->
  (forall k d, nth_error (dh_to (m_did m)) k = Some d -> exists r, nth_error rs k = Some r /\ String.length (print (ser_recipient r)) <= 6 * String.length d + 2900) ->
  String.length (message_json (with_recipients m (Some rs))) <= 1000 * String.length (message_json m).
Proof.
  intros m rs HL HN. pose proof (to_size m) as HT. rewrite message_size. cbn [with_recipients m_jwm m_did m_recipients m_body m_attachments sopt]. rewrite sum_cons, sum_nil.
  assert (HS : list_sum (map (fun r => String.length (print (ser_recipient r)) + 1) rs) <= list_sum (map (fun d => 980 * (String.length d + 3)) (dh_to (m_did m)))).
  { apply sum_pair; [exact HL|]. intros k d Hd. destruct (HN k d Hd) as [r [H1 H2]]. exists r. split; [exact H1|]. lia. }
  assert (HM : forall l, list_sum (map (fun d => 980 * (String.length d + 3)) l) = 980 * list_sum (map (fun d => String.length d + 3) l)).
  { induction l as [|d l IH]; [reflexivity|]. cbn [map list_sum fold_right] in *. unfold list_sum in IH. rewrite IH. lia. }
  rewrite HM in HS. set (T := list_sum (map (fun d => String.length d + 3) (dh_to (m_did m)))) in *.
  assert (HA : String.length (print (JArr (map ser_recipient rs))) <= 980 * T + 2).
  { destruct rs as [|r rs]; [cbn; lia|]. rewrite arr_size by discriminate. rewrite map_map. lia. }
  apply (member_le "recipients") in HA. rewrite message_size in HT |- *. cbn [String.length] in *. lia.
Qed.
Lemma type_name_size : forall t, String.length (message_type_name t) <= 60.
Proof. intros []; vm_compute; lia. Qed.
Lemma header_size : forall m, String.length (header_b64 (seal_header m)) <= 1000 * String.length (message_json m).
Proof.
  intros m. unfold header_b64. pose proof (b64_size (print (ser_jwm (seal_header m)))) as HB.
  assert (HP : String.length (print (ser_jwm (seal_header m))) <= String.length (message_json m) + 420); [|pose proof (to_size m); lia].
  rewrite message_size. unfold ser_jwm. rewrite obj_size by (unfold jwm_entries; discriminate). unfold jwm_entries. rewrite !sum_app, !sum_cons, !sum_nil.
  assert (HT : member_size ("typ", jstr (message_type_name (jh_typ (seal_header m)))) <= 400) by (pose proof (text_member_le "typ" _ _ (type_name_size (jh_typ (seal_header m)))) as G; cbn [String.length] in G; lia).
  assert (HF : list_sum (map member_size (sopt "skid" jstr (jh_skid (seal_header m)))) <= list_sum (map member_size (didcomm_entries (m_did m)))).
  { rewrite seal_header_skid. unfold didcomm_entries. rewrite !sum_app. rewrite !sum_cons, !sum_nil. destruct (dh_from (m_did m)) as [f|]; cbn [sopt snull]; [|rewrite sum_nil; lia]. rewrite sum_cons, sum_nil.
    assert (HQ : member_size ("skid", jstr f) = member_size ("from", jstr f)) by (unfold member_size; cbn [fst snd]; reflexivity). lia. }
  assert (HE : jh_enc (seal_header m) = jh_enc (m_jwm m) /\ jh_kid (seal_header m) = jh_kid (m_jwm m) /\ jh_alg (seal_header m) = jh_alg (m_jwm m) /\ jh_jku (seal_header m) = jh_jku (m_jwm m) /\
    jh_jwk (seal_header m) = jh_jwk (m_jwm m) /\ jh_epk (seal_header m) = jh_epk (m_jwm m) /\ jh_cty (seal_header m) = jh_cty (m_jwm m)) by (unfold seal_header; destruct (jh_typ (m_jwm m)); repeat split).
  destruct HE as [-> [-> [-> [-> [-> [-> ->]]]]]]. lia.
Qed.

(** ** The two ciphers in an environment *)

(** [E] with the ciphers of the crate. *)
Definition ciphers (E : env) : env := {|
  x_pub := x_pub E; x_dh := x_dh E;
  xc_enc := xc20p_enc; xc_dec := xc20p_dec; gcm_enc := aesgcm_enc; gcm_dec := aesgcm_dec;
  cbc_enc := cbc_enc E; sig_sign := sig_sign E; sig_verify := sig_verify E; resolve := resolve E; fl := fl E; ho := ho E |}.
Lemma xc_total : forall k n a p, String.length k = 32 -> String.length n = 24 -> (len64 p <= 2 ^ 36)%N -> exists c, xc20p_enc k n a p = Some c.
Proof.
  intros k n a p HK HN HP. unfold xc20p_enc. assert (HF : xc_fits k n p = true) by (apply xc_fits_ok; change (2 ^ 36)%N with 68719476736%N in HP; lia). rewrite HF. eexists. reflexivity.
Qed.
Lemma gcm_total : forall k n a p, String.length k = 32 -> String.length n = 12 -> (len64 p <= 2 ^ 36)%N -> (len64 a <= 2 ^ 36)%N -> exists c, aesgcm_enc k n a p = Some c.
Proof. intros k n a p HK HN HP HA. unfold aesgcm_enc. assert (HF : gcm_fits 0 k n a p = true) by (apply gcm_fits_ok; lia). rewrite HF. eexists. reflexivity. Qed.
Lemma xc_aead : aead_ok xc20p_enc xc20p_dec.
Proof. split; intros k n a p c H; apply xc_round in H; [apply H|lia]. Qed.
Lemma gcm_aead : aead_ok aesgcm_enc aesgcm_dec.
Proof. split; intros k n a p c H; apply gcm_round in H; [apply H|lia]. Qed.
Lemma ciphers_ok : forall E, dh_ok E -> crypto_ok (ciphers E).
Proof. intros E [H1 H2]. split; [split; [exact H1|exact H2]|exact xc_aead|exact gcm_aead]. Qed.
Lemma ciphers_env : forall E, env_ok E -> env_ok (ciphers E).
Proof. intros E [H1 H2]. split; [exact H1|exact H2]. Qed.
Lemma wrap_short : forall E a k n, usable a -> String.length k = 32 -> String.length n = wrap_len a -> exists c, wrap_enc (ciphers E) a k n "" seal_cek = Some c.
Proof.
  intros E a k n HU HK HN. assert (HC : (len64 seal_cek <= 2 ^ 36)%N) by (unfold len64; rewrite seal_cek_length; discriminate).
  destruct a; [apply xc_total; assumption|apply gcm_total; try assumption; discriminate|now elim HU].
Qed.
Lemma encryptor_short : forall E a iv k p ad, usable a -> String.length k = 32 -> String.length iv = 24 -> (len64 p <= 2 ^ 36)%N -> (len64 ad <= 2 ^ 36)%N ->
  exists c, encryptor (ciphers E) a iv k p ad = Ok c.
Proof.
  intros E a iv k p ad HU HK HN HP HA. unfold encryptor, check_nonce. destruct a; [| |congruence]; rewrite HN; cbn [Nat.ltb Nat.leb rbind].
  - rewrite !exact_len_ok by assumption. cbn [rbind]. destruct (xc_total k iv ad p HK HN HP) as [c HC]. change (xc_enc (ciphers E)) with xc20p_enc. rewrite HC. now exists c.
  - rewrite !exact_len_ok by assumption. cbn [rbind]. destruct (gcm_total k (take 12 iv) ad p HK) as [c HC]; [apply take_length; lia|exact HP|exact HA|].
    change (gcm_enc (ciphers E)) with aesgcm_enc. rewrite HC. now exists c.
Qed.
Lemma wrap_size : forall E a k n ad p c, wrap_enc (ciphers E) a k n ad p = Some c -> String.length c = String.length p + 16.
Proof. intros E a k n ad p c H. destruct a; [apply xc_round in H; apply H|apply gcm_round in H; apply H|discriminate]. Qed.
Lemma real_seal_total : forall E rnd m sk keys a, dh_ok E -> rand_ok rnd -> usable a ->
  jh_alg (m_jwm m) = Some (wrap_name a) -> String.length sk = 32 -> dh_to (m_did m) <> [] ->
  (m_flat_jwe m = true -> List.length (dh_to (m_did m)) = 1) -> (forall l, keys = Some l -> List.length l = List.length (dh_to (m_did m))) ->
  (forall k dest, nth_error (dh_to (m_did m)) k = Some dest -> exists key, known_key E dest (given_key keys k) key /\ 32 <= String.length key) ->
  (len64 (message_json m) <= 2 ^ 26)%N ->
  exists text, seal (ciphers E) rnd m sk keys = Ok text.
Proof.
  intros E rnd m sk keys a HD HR HU HA HL HTo HF HKL HK HZ. pose proof (ciphers_ok E HD) as HC. change (2 ^ 26)%N with 67108864%N in HZ. unfold len64 in HZ.
  apply (seal_total_gen (ciphers E) rnd m sk keys a); auto.
  - intros k n. now apply wrap_short.
  - intros rs HRL HRN. apply encryptor_short; [exact HU|exact seal_cek_length|exact (ra_iv rnd HR)| |].
    + assert (HS : String.length (message_json (with_recipients m (Some rs))) <= 1000 * String.length (message_json m)).
      { apply sealed_size; [exact HRL|]. intros k d Hd. destruct (HRN k d Hd) as [r [H1 H2]]. exists r. split; [exact H1|].
        apply encrypt_cek_ok in H2. destruct H2 as [a' [key [c [U1 [U2 [U3 [U4 [U5 [U6 [U7 [HW [HLc ->]]]]]]]]]]]]. apply wrap_size in HW. rewrite seal_cek_length in HW.
        apply entry_size.
        - apply (dh_len _ (co_dh _ HC)). exact (ra_secret rnd HR k).
        - rewrite U7. destruct a'; cbn; lia.
        - pose proof (take_size (String.length c - 16) c). lia.
        - pose proof (drop_size (String.length c - 16) c). lia. }
      unfold len64. change (2 ^ 36)%N with 68719476736%N. lia.
    + pose proof (header_size m) as HS. unfold len64. change (2 ^ 36)%N with 68719476736%N. lia.
Qed.
