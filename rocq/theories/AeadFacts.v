(** The content ciphers: lengths and inversion. *)

From Coq Require Import Ascii String Arith NArith List Bool Lia.
From Verif Require Import Bytes BytesFacts ChaCha Sha256 Aead Envelope CryptoLaws.
Import ListNotations.
Local Open Scope string_scope.

(** ** Exclusive or *)

Lemma code_lt : forall c, (code c < 256)%N.
Proof. intros c. apply N_ascii_bounded. Qed.
Lemma lxor_byte : forall a b, (a < 256 -> b < 256 -> N.lxor a b < 256)%N.
Proof.
  intros a b HA HB. destruct (N.eq_dec (N.lxor a b) 0) as [->|N0]; [lia|]. change 256%N with (2 ^ 8)%N. apply N.log2_lt_pow2; [lia|].
  assert (HL : forall x, (x < 256 -> N.log2 x < 8)%N). { intros x HX. destruct (N.eq_dec x 0) as [->|X0]; [reflexivity|]. apply N.log2_lt_pow2; [lia|exact HX]. }
  eapply N.le_lt_trans; [apply N.log2_lxor|]. apply N.max_lub_lt; now apply HL.
Qed.
Lemma code_chr : forall n, (n < 256)%N -> code (chr n) = n.
Proof. intros n H. now apply N_ascii_embedding. Qed.
Lemma chr_code : forall c, chr (code c) = c.
Proof. exact ascii_N_embedding. Qed.
Lemma xor_cancel : forall p s, String.length p <= String.length s -> xor_bytes (xor_bytes p s) s = p.
Proof.
  induction p as [|x p IH]; intros s H; [reflexivity|]. destruct s as [|y s]; [cbn in H; lia|]. cbn [xor_bytes]. cbn [String.length] in H. rewrite IH by lia.
  f_equal. rewrite code_chr by (apply lxor_byte; apply code_lt). rewrite N.lxor_assoc, N.lxor_nilpotent, N.lxor_0_r. apply chr_code.
Qed.
Lemma xor_length : forall p s, String.length p <= String.length s -> String.length (xor_bytes p s) = String.length p.
Proof. induction p as [|x p IH]; intros [|y s] H; cbn in *; try lia. now rewrite IH by lia. Qed.
(** The key stream drops out of the difference of two texts. *)
Lemma xor_difference : forall p q s, String.length p = String.length q -> String.length p <= String.length s ->
  xor_bytes (xor_bytes p s) (xor_bytes q s) = xor_bytes p q.
Proof.
  induction p as [|x p IH]; intros [|y q] [|z s] H1 H2; cbn in *; try lia; try reflexivity. rewrite IH by lia. do 2 f_equal.
  rewrite !code_chr by (apply lxor_byte; apply code_lt). rewrite (N.lxor_comm (code y) (code z)), N.lxor_assoc, <- (N.lxor_assoc (code z) (code z)).
  now rewrite N.lxor_nilpotent, N.lxor_0_l.
Qed.

(** ** Stream cipher with tag *)

Definition stream_enc (fits : string -> bool) (stream : nat -> string) (tag : string -> string) (p : string) : option string :=
  if fits p then let c := xor_bytes p (stream (String.length p)) in Some (c ++ tag c) else None.
Definition stream_dec (fits : string -> bool) (stream : nat -> string) (tag : string -> string) (c : string) : option string :=
  if Nat.ltb (String.length c) 16 then None
  else
    let body := take (String.length c - 16) c in
    let t := drop (String.length c - 16) c in
    if (fits body && String.eqb t (tag body))%bool then Some (xor_bytes body (stream (String.length body))) else None.

Lemma stream_round : forall f g s t p c, stream_enc f s t p = Some c -> (forall q, f q = true -> String.length (s (String.length q)) = String.length q) ->
  (forall q, String.length (t q) = 16) -> (forall q q', String.length q' = String.length q -> f q = true -> g q' = true) ->
  stream_dec g s t c = Some p /\ String.length c = String.length p + 16.
Proof.
  intros f g s t p c H HS HT HF. unfold stream_enc in H. destruct (f p) eqn:F; [|discriminate]. cbv zeta in H. injection H as <-.
  pose proof (HS p F) as LS. set (b := xor_bytes p (s (String.length p))). assert (LB : String.length b = String.length p) by (apply xor_length; lia).
  assert (LC : String.length (b ++ t b) = String.length p + 16) by (rewrite slen_app, HT, LB; reflexivity). split; [|exact LC].
  unfold stream_dec. rewrite LC. destruct (Nat.ltb_spec (String.length p + 16) 16); [lia|]. replace (String.length p + 16 - 16) with (String.length b) by lia.
  cbv zeta. rewrite take_app, drop_app, String.eqb_refl. rewrite (HF p b LB F). cbn [andb]. f_equal. rewrite LB. apply xor_cancel. lia.
Qed.
Lemma stream_back : forall f g s t p c, stream_dec g s t c = Some p -> (forall q, g q = true -> String.length (s (String.length q)) = String.length q) ->
  (forall q, g q = true -> f p = true \/ String.length q <> String.length p) ->
  stream_enc f s t p = Some c.
Proof.
  intros f g s t p c H HS HF. unfold stream_dec in H. destruct (Nat.ltb_spec (String.length c) 16) as [|LC]; [discriminate|]. cbv zeta in H.
  set (b := take (String.length c - 16) c) in *. destruct (g b) eqn:G; [|discriminate]. destruct (String.eqb_spec (drop (String.length c - 16) c) (t b)) as [ET|]; [|discriminate].
  cbn [andb] in H. injection H as EP. pose proof (HS b G) as LS. assert (LP : String.length p = String.length b) by (rewrite <- EP; apply xor_length; lia).
  unfold stream_enc. destruct (HF b G) as [->|N]; [|lia]. cbv zeta. rewrite LP. rewrite <- EP. rewrite xor_cancel by lia. rewrite <- ET. unfold b. now rewrite take_drop.
Qed.
Lemma stream_difference : forall f s t f2 t2 p q c d, stream_enc f s t p = Some c -> stream_enc f2 s t2 q = Some d ->
  (forall q, f q = true -> String.length (s (String.length q)) = String.length q) -> String.length p = String.length q ->
  take (String.length p) (xor_bytes c d) = xor_bytes p q.
Proof.
  intros f s t f2 t2 p q c d H1 H2 HS HL. unfold stream_enc in *. destruct (f p) eqn:F; [|discriminate]. destruct (f2 q) eqn:G; [|discriminate]. cbv zeta in *.
  apply (f_equal (fun o => match o with Some x => x | None => "" end)) in H1. apply (f_equal (fun o => match o with Some x => x | None => "" end)) in H2. cbv beta iota in H1, H2.
  subst c d. pose proof (HS p F) as LS. rewrite <- HL. set (st := s (String.length p)) in *.
  assert (TK : forall a b u v, String.length a = String.length b -> take (String.length a) (xor_bytes (a ++ u) (b ++ v)) = xor_bytes a b).
  { induction a as [|x a IH]; intros [|y b] u v HAB; try discriminate; [reflexivity|]. cbn [append xor_bytes String.length take]. f_equal. apply IH. now injection HAB. }
  assert (L1 : String.length (xor_bytes p st) = String.length p) by (apply xor_length; lia).
  assert (L2 : String.length (xor_bytes q st) = String.length q) by (apply xor_length; lia).
  rewrite <- L1 at 1. rewrite TK by lia. apply xor_difference; lia.
Qed.

(** ** Lengths of the key streams *)

Lemma concat_length : forall A (f : A -> string) n l, (forall x, In x l -> String.length (f x) = n) -> String.length (String.concat "" (map f l)) = n * List.length l.
Proof.
  intros A f n l. induction l as [|x l IH]; intros H; [cbn; lia|]. destruct l as [|y l].
  - cbn [map String.concat List.length]. rewrite H by now left. lia.
  - change (String.concat "" (map f (x :: y :: l))) with (f x ++ "" ++ String.concat "" (map f (y :: l))). rewrite !slen_app, IH by (intros z HZ; apply H; now right).
    rewrite H by now left. cbn [String.length List.length]. lia.
Qed.
Lemma double_round_length : forall s, List.length s = 16 -> List.length (double_round s) = 16.
Proof.
  intros s H. do 16 (destruct s as [|? s]; [discriminate|]). destruct s; [|discriminate]. unfold double_round.
  repeat match goal with |- context [quarter ?a ?b ?c ?d] => destruct (quarter a b c d) as [[[? ?] ?] ?] end. reflexivity.
Qed.
Lemma rounds_length : forall n s, List.length s = 16 -> List.length (Nat.iter n double_round s) = 16.
Proof. induction n as [|n IH]; intros s H; [exact H|]. cbn [Nat.iter nat_rect]. apply double_round_length. now apply IH. Qed.
Lemma le_words_length : forall n s, String.length s = 4 * n -> List.length (le_words s) = n.
Proof.
  induction n as [|n IH]; intros s H; [destruct s; [reflexivity|cbn in H; lia]|].
  do 4 (destruct s as [|? s]; [cbn in H; lia|]). cbn [le_words List.length]. rewrite IH; [reflexivity|]. cbn [String.length] in H. lia.
Qed.
Lemma chacha_block_length : forall k c s, List.length k = 8 -> String.length (chacha_block k c s) = 64.
Proof.
  intros k c s H. unfold chacha_block. cbv zeta. set (init := ([1634760805; 857760878; 2036477234; 1797285236] ++ k ++ [fst c; snd c; fst s; snd s])%list%N).
  assert (LI : List.length init = 16) by (unfold init; rewrite !app_length, H; reflexivity).
  rewrite (concat_length _ le4 4) by reflexivity. rewrite map_length, combine_length, rounds_length, LI by exact LI. reflexivity.
Qed.
Lemma hchacha_length : forall k n, List.length k = 8 -> List.length n = 4 -> List.length (hchacha k n) = 8.
Proof.
  intros k n HK HN. unfold hchacha. cbv zeta. rewrite app_length, firstn_length, skipn_length, rounds_length; [reflexivity|]. rewrite !app_length, HK, HN. reflexivity.
Qed.
Lemma xc_block_length : forall k n i, String.length k = 32 -> String.length n = 24 -> String.length (xc_block k n i) = 64.
Proof.
  intros k n i HK HN. apply chacha_block_length, hchacha_length; apply le_words_length; [exact HK|]. rewrite take_length by lia. reflexivity.
Qed.
Lemma stream_length : forall (f : nat -> string) a n l, n <> 0 -> (forall i, String.length (f i) = n) ->
  String.length (take l (String.concat "" (map f (seq a (S (Nat.div l n)))))) = l.
Proof.
  intros f a n l HN HF. apply take_length. rewrite (concat_length _ f n) by (intros; apply HF). rewrite seq_length. pose proof (Nat.mul_succ_div_gt l n HN). lia.
Qed.
Lemma xc_stream_length : forall k n l, String.length k = 32 -> String.length n = 24 -> String.length (xc_stream k n l) = l.
Proof. intros k n l HK HN. unfold xc_stream. apply (stream_length (xc_block k n) 1 64); [lia|]. intros i. now apply xc_block_length. Qed.
Lemma le_bytes_length : forall n x, String.length (le_bytes n x) = n.
Proof. induction n as [|n IH]; intros x; [reflexivity|]. cbn [le_bytes String.length]. now rewrite IH. Qed.
Lemma be_bytes_length : forall n x, String.length (be_bytes n x) = n.
Proof. induction n as [|n IH]; intros x; [reflexivity|]. cbn [be_bytes String.length]. now rewrite IH. Qed.
Lemma xc_tag_length : forall k n a c, String.length (xc_tag k n a c) = 16.
Proof. intros. apply le_bytes_length. Qed.
Lemma string_of_list_length : forall l, String.length (string_of_list_ascii l) = List.length l.
Proof. induction l as [|c l IH]; [reflexivity|]. cbn [string_of_list_ascii String.length List.length]. now rewrite IH. Qed.
Lemma aes_block_length : forall ws b, String.length (aes_block ws b) = 16.
Proof. intros ws b. unfold aes_block. cbv zeta. rewrite string_of_list_length, map_length. unfold add_key. rewrite map_length, combine_length. reflexivity. Qed.
Lemma gcm_stream_length : forall k n l, String.length (gcm_stream k n l) = l.
Proof. intros k n l. unfold gcm_stream. cbv zeta. apply (stream_length (gcm_block (expand k) n) 2 16); [lia|]. intros i. apply aes_block_length. Qed.
Lemma gcm_tag_length : forall k n a c, String.length (gcm_tag k n a c) = 16.
Proof. intros k n a c. unfold gcm_tag. cbv zeta. rewrite xor_length; [apply be_bytes_length|]. rewrite be_bytes_length. unfold gcm_block. rewrite aes_block_length. lia. Qed.

(** ** The two ciphers *)

Lemma xc_fits_ok : forall k n p, xc_fits k n p = true <-> String.length k = 32 /\ String.length n = 24 /\ (len64 p < 64 * 4294967295)%N.
Proof.
  intros k n p. unfold xc_fits. rewrite !andb_true_iff, !Nat.eqb_eq, N.ltb_lt. assert (Q : (len64 p / 64 < 4294967295 <-> len64 p < 64 * 4294967295)%N).
  { split; intros H; [|now apply N.div_lt_upper_bound]. apply N.lt_nge. intros G. apply N.lt_nge in H. apply H. apply N.div_le_lower_bound; [discriminate|exact G]. }
  tauto.
Qed.
Lemma gcm_fits_ok : forall x k n a p, gcm_fits x k n a p = true <-> String.length k = 32 /\ String.length n = 12 /\ (len64 p <= 2 ^ 36 + x)%N /\ (len64 a <= 2 ^ 36)%N.
Proof. intros x k n a p. unfold gcm_fits. rewrite !andb_true_iff, !Nat.eqb_eq, !N.leb_le. tauto. Qed.

Lemma xc_round : forall k n a p c, xc20p_enc k n a p = Some c -> xc20p_dec k n a c = Some p /\ String.length c = String.length p + 16.
Proof.
  intros k n a p c H. apply (stream_round (xc_fits k n) (xc_fits k n) (xc_stream k n) (xc_tag k n a)); [exact H| |intros; apply xc_tag_length|].
  - intros q HQ. apply xc_fits_ok in HQ. now apply xc_stream_length.
  - intros q q' HL HQ. apply xc_fits_ok in HQ. apply xc_fits_ok. unfold len64 in *. rewrite HL. exact HQ.
Qed.
Lemma xc_back : forall k n a p c, xc20p_dec k n a c = Some p -> xc20p_enc k n a p = Some c.
Proof.
  intros k n a p c H. apply (stream_back (xc_fits k n) (xc_fits k n) (xc_stream k n) (xc_tag k n a)); [exact H| |].
  - intros q HQ. apply xc_fits_ok in HQ. now apply xc_stream_length.
  - intros q HQ. destruct (Nat.eq_dec (String.length q) (String.length p)) as [E|E]; [left|now right]. apply xc_fits_ok in HQ. apply xc_fits_ok. unfold len64 in *. rewrite <- E. exact HQ.
Qed.
Lemma gcm_round : forall k n a p c, aesgcm_enc k n a p = Some c -> aesgcm_dec k n a c = Some p /\ String.length c = String.length p + 16.
Proof.
  intros k n a p c H. apply (stream_round (gcm_fits 0 k n a) (gcm_fits 16 k n a) (gcm_stream k n) (gcm_tag k n a)); [exact H| |intros; apply gcm_tag_length|].
  - intros q HQ. apply gcm_stream_length.
  - intros q q' HL HQ. apply gcm_fits_ok in HQ. apply gcm_fits_ok. unfold len64 in *. rewrite HL. lia.
Qed.
Lemma gcm_back : forall k n a p c, aesgcm_dec k n a c = Some p -> (len64 p <= 2 ^ 36)%N -> aesgcm_enc k n a p = Some c.
Proof.
  intros k n a p c H HP. apply (stream_back (gcm_fits 0 k n a) (gcm_fits 16 k n a) (gcm_stream k n) (gcm_tag k n a)); [exact H| |].
  - intros q HQ. apply gcm_stream_length.
  - intros q HQ. left. apply gcm_fits_ok in HQ. apply gcm_fits_ok. rewrite N.add_0_r. tauto.
Qed.
