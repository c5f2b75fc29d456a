(** The closure for A256CBC, and AES as a permutation: C73. *)

From Coq Require Import Ascii String Arith NArith List Bool Lia.
From Verif Require Import Bytes BytesFacts Base64 Base64Facts Utf8 Json Value Types Serde Message Attach ChaCha Sha256 Sha512 Aead AeadFacts SpecPrim PrimFacts PrimFacts2 PrimFacts3 PrimUnique PropAead PropPrim
  Envelope CryptoLaws Cbc SpecCbc CbcFacts.
Import ListNotations.
Local Open Scope string_scope.

(** ** C73 *)

(** For every key, AES is a permutation of the blocks: every block is the result for exactly one. *)
Theorem C73_permutation : forall key out, String.length key = 32 -> String.length out = 16 ->
  exists block, String.length block = 16 /\ is_aes key block out /\ forall block', String.length block' = 16 -> is_aes key block' out -> block' = block.
Proof.
  intros key out hk ho. destruct (aes_permutes (expand key) out ho) as [_ [h1 h2]]. remember (un_block (expand key) out) as b eqn:eb. clear eb. exists b. split; [exact h2|]. split.
  - apply C71_aes; [exact hk|exact h2|]. now symmetry.
  - intros b' hb' h. apply (C71_aes key b' out hk hb') in h. apply (aes_inj (expand key)); [exact hb'|exact h2|]. congruence.
Qed.
Lemma closure_is : forall E nonce key text ad, encryptor (with_cbc E) A256CBC nonce key text ad =
  if (String.length key =? 32)%nat then if (String.length nonce =? 16)%nat then Ok (cbc256 key nonce text) else Err (EInvalidKeySize "expected 16 bytes nonce")
  else Err (EInvalidKeySize "expected 256 bit (32 byte) key").
Proof. intros E nonce key text ad. cbn [encryptor]. destruct (String.length key =? 32)%nat; cbn [negb]; [|reflexivity]. destruct (String.length nonce =? 16)%nat; reflexivity. Qed.
(** Its results are those of NIST SP 800-38A with the padding of RFC 5652. *)
Theorem C73_cbc : forall E nonce key text ad c,
  encryptor (with_cbc E) A256CBC nonce key text ad = Ok c <-> String.length key = 32 /\ String.length nonce = 16 /\ is_cbc key nonce text c.
Proof.
  intros E nonce key text ad c. rewrite closure_is. destruct (Nat.eqb_spec (String.length key) 32) as [hk|hk]; [|split; [discriminate|tauto]].
  destruct (Nat.eqb_spec (String.length nonce) 16) as [hn|hn]; [|split; [discriminate|tauto]]. split.
  - intros h. assert (e : cbc256 key nonce text = c) by (generalize (cbc256 key nonce text) h; intros x hx; now injection hx). split; [exact hk|]. split; [exact hn|]. rewrite <- e. now apply cbc_is.
  - intros [_ [_ h]]. f_equal. apply (cbc_unique key nonce text); [now apply cbc_is|exact h].
Qed.
(** Exactly the lengths of key and nonce matter for success. *)
Theorem C73_total : forall E nonce key text ad, (exists c, encryptor (with_cbc E) A256CBC nonce key text ad = Ok c) <-> String.length key = 32 /\ String.length nonce = 16.
Proof.
  intros E nonce key text ad. split; [intros [c h]; apply C73_cbc in h; tauto|]. intros [h1 h2]. exists (cbc256 key nonce text). apply C73_cbc. split; [exact h1|]. split; [exact h2|now apply cbc_is].
Qed.
Theorem C73_size : forall E nonce key text ad c, encryptor (with_cbc E) A256CBC nonce key text ad = Ok c -> String.length c = 16 * (String.length text / 16 + 1).
Proof.
  intros E nonce key text ad c h. apply C73_cbc in h. destruct h as [_ [_ [p [n [h1 [h2 [h3 _]]]]]]]. destruct (counts _ _ _ h1 h2) as [_ ->]. rewrite h3. unfold block_count. lia.
Qed.
(** The text is determined by the result. *)
Theorem C73_one_text : forall E nonce key t1 t2 ad1 ad2 c, encryptor (with_cbc E) A256CBC nonce key t1 ad1 = Ok c -> encryptor (with_cbc E) A256CBC nonce key t2 ad2 = Ok c -> t1 = t2.
Proof.
  intros E nonce key t1 t2 ad1 ad2 c h1 h2. apply C73_cbc in h1. apply C73_cbc in h2. destruct h1 as [hk [_ h1]]. destruct h2 as [_ [_ h2]]. exact (cbc_one_text key nonce t1 t2 c hk h1 h2).
Qed.
(** With the same nonce the results agree in their first [k] blocks exactly if the texts do. *)
Theorem C73_prefix : forall E nonce key t1 t2 ad1 ad2 c1 c2 k, encryptor (with_cbc E) A256CBC nonce key t1 ad1 = Ok c1 -> encryptor (with_cbc E) A256CBC nonce key t2 ad2 = Ok c2 ->
  16 * k <= String.length t1 -> 16 * k <= String.length t2 -> (substring 0 (16 * k) c1 = substring 0 (16 * k) c2 <-> substring 0 (16 * k) t1 = substring 0 (16 * k) t2).
Proof.
  intros E nonce key t1 t2 ad1 ad2 c1 c2 k h1 h2 l1 l2. pose proof (C73_size _ _ _ _ _ _ h1) as s1. pose proof (C73_size _ _ _ _ _ _ h2) as s2.
  apply C73_cbc in h1. apply C73_cbc in h2. destruct h1 as [hk [_ h1]]. destruct h2 as [_ [_ h2]].
  assert (k1 : k <= block_count t1) by (destruct (pad_facts t1) as [_ [q _]]; lia). assert (k2 : k <= block_count t2) by (destruct (pad_facts t2) as [_ [q _]]; lia).
  assert (B : forall a b, 16 * k <= String.length a -> 16 * k <= String.length b -> (substring 0 (16 * k) a = substring 0 (16 * k) b <-> forall j, j < 16 * k -> byte_at a j = byte_at b j)).
  { intros a b la lb. rewrite !substring_take. split.
    - intros e j hj. rewrite <- (byte_at_take (16 * k) a), <- (byte_at_take (16 * k) b) by exact hj. now rewrite e.
    - intros e. apply string_ext; [rewrite !take_length by assumption; reflexivity|]. rewrite take_length by assumption. intros j hj. rewrite !byte_at_take by exact hj. now apply e. }
  assert (lc1 : 16 * k <= String.length c1) by (unfold block_count in k1; lia). assert (lc2 : 16 * k <= String.length c2) by (unfold block_count in k2; lia).
  rewrite (B c1 c2 lc1 lc2), (B t1 t2 l1 l2).
  assert (P : forall t j, 16 * k <= String.length t -> j < 16 * k -> padded_at t (pad_count t) j = byte_at t j).
  { intros t j lt hj. unfold padded_at. destruct (Nat.ltb_spec j (String.length t)); [reflexivity|lia]. }
  split; intros e j hj.
  - rewrite <- (P t1 j l1 hj), <- (P t2 j l2 hj). exact (cbc_back key nonce t1 t2 c1 c2 k hk h1 h2 k1 k2 e j hj).
  - refine (cbc_agree key nonce t1 t2 c1 c2 k h1 h2 k1 k2 _ j hj). intros i hi. rewrite (P t1 i l1 hi), (P t2 i l2 hi). now apply e.
Qed.
(** [Message::encrypt] makes no envelope with it: its nonce has 24 bytes. *)
Theorem C73_no_envelope : forall E iv m key text, String.length iv = 24 -> encrypt iv m (encryptor (with_cbc E) A256CBC) key <> Ok text.
Proof.
  intros E iv m key text hv h. unfold encrypt in h. destruct (encrypt_header m) as [hd| |]; [|discriminate..]. cbn [rbind] in h. rewrite b64_decode_encode in h. cbn [oerr rbind] in h.
  rewrite closure_is in h. rewrite hv in h. change (24 =? 16)%nat with false in h. destruct (String.length key =? 32)%nat; discriminate h.
Qed.

(** ** Cases *)

(** NIST SP 800-38A, F.2.5, first block. *)
Definition cbc_key : string := hex "603deb1015ca71be2b73aef0857d77811f352c073b6108d72d9810a30914dff4".
Definition cbc_text : string := hex "6bc1bee22e409f96e93d7e117393172a".
Example C73_example : exists c, encryptor (with_cbc toy) A256CBC (hex "000102030405060708090a0b0c0d0e0f") cbc_key cbc_text "" = Ok c /\
  substring 0 16 c = hex "f58c4c04d6e5f1ba779eabfb5f7bfbd6" /\ String.length c = 32.
Proof. eexists. split; [rewrite closure_is; vm_compute; reflexivity|]. split; vm_compute; reflexivity. Qed.

Print Assumptions C73_permutation.
Print Assumptions C73_cbc.
Print Assumptions C73_total.
Print Assumptions C73_size.
Print Assumptions C73_one_text.
Print Assumptions C73_prefix.
Print Assumptions C73_no_envelope.
