(** Facts about Base64.v. *)

From Coq Require Import Ascii String Arith NArith ZArith ZifyN List Bool Lia.
From Verif Require Import Bytes Base64 BytesFacts.
Import ListNotations.
Local Open Scope string_scope.
Local Open Scope N_scope.

Ltac Zify.zify_post_hook ::= Z.div_mod_to_equations.

Lemma dec6_enc6 : forall n, n < 64 -> dec6 (enc6 n) = Some n.
Proof.
  intros n Hn.
  pose proof (sweep 64 (fun n => match dec6 (enc6 n) with Some m => (m =? n)%N | None => false end) ltac:(vm_compute; reflexivity) n Hn) as H.
  simpl in H. destruct (dec6 (enc6 n)); [|discriminate]. apply N.eqb_eq in H. now subst.
Qed.

Lemma dec6_inv : forall c n, dec6 c = Some n -> n < 64 /\ enc6 n = c.
Proof.
  intros c n H.
  pose proof (ascii_sweep (fun c => match dec6 c with Some m => (m <? 64)%N && Ascii.eqb (enc6 m) c | None => true end) ltac:(vm_compute; reflexivity) c) as Hs.
  simpl in Hs. rewrite H in Hs. apply andb_true_iff in Hs. destruct Hs as [H1 H2].
  apply N.ltb_lt in H1. apply Ascii.eqb_eq in H2. now split.
Qed.

Lemma enc6_not_eq : forall n, n < 64 -> Ascii.eqb (enc6 n) "="%char = false.
Proof.
  intros n Hn.
  pose proof (sweep 64 (fun n => negb (Ascii.eqb (enc6 n) "="%char)) ltac:(vm_compute; reflexivity) n Hn) as H.
  now apply negb_true_iff in H.
Qed.

Lemma dec6_eq_pad : dec6 "=" = None.
Proof. reflexivity. Qed.

(** Induction by three bytes. *)
Lemma string_ind3 : forall P : string -> Prop,
  P "" -> (forall a, P (String a "")) -> (forall a b, P (String a (String b ""))) ->
  (forall a b c r, P r -> P (String a (String b (String c r)))) -> forall s, P s.
Proof.
  intros P H0 H1 H2 H3.
  assert (Hn : forall n s, (String.length s <= n)%nat -> P s).
  { induction n as [|n IH]; intros s Hl.
    - destruct s; [assumption|simpl in Hl; lia].
    - destruct s as [|a [|b [|c r]]]; auto. apply H3. apply IH. simpl in Hl. lia. }
  intros s. now apply (Hn (String.length s)).
Qed.

Lemma string_ind4 : forall P : string -> Prop,
  P "" -> (forall a, P (String a "")) -> (forall a b, P (String a (String b ""))) ->
  (forall a b c, P (String a (String b (String c "")))) ->
  (forall a b c d r, P r -> P (String a (String b (String c (String d r))))) -> forall s, P s.
Proof.
  intros P H0 H1 H2 H3 H4.
  assert (Hn : forall n s, (String.length s <= n)%nat -> P s).
  { induction n as [|n IH]; intros s Hl.
    - destruct s; [assumption|simpl in Hl; lia].
    - destruct s as [|a [|b [|c [|d r]]]]; auto. apply H4. apply IH. simpl in Hl. lia. }
  intros s. now apply (Hn (String.length s)).
Qed.

Lemma chr_eq : forall c n, n = code c -> chr n = c.
Proof. intros c n ->. apply chr_code. Qed.

Lemma b64_decode_encode : forall s, b64_decode (b64_encode s) = Some s.
Proof.
  apply string_ind3.
  - reflexivity.
  - intros a. pose proof (code_lt a). cbn [b64_encode b64_decode]. unfold dec_two.
    rewrite !dec6_enc6 by lia.
    replace (code a mod 4 * 16 mod 16 =? 0) with true by (symmetry; apply N.eqb_eq; lia).
    do 2 f_equal. apply chr_eq. lia.
  - intros a b. pose proof (code_lt a). pose proof (code_lt b). cbn [b64_encode b64_decode].
    rewrite enc6_not_eq by lia. unfold dec_three. rewrite !dec6_enc6 by lia.
    replace (code b mod 16 * 4 mod 4 =? 0) with true by (symmetry; apply N.eqb_eq; lia).
    f_equal. f_equal; [apply chr_eq; lia|]. f_equal. apply chr_eq. lia.
  - intros a b c r IH. pose proof (code_lt a). pose proof (code_lt b). pose proof (code_lt c).
    cbn [b64_encode b64_decode]. rewrite !dec6_enc6 by lia. rewrite IH.
    f_equal. f_equal; [apply chr_eq; lia|]. f_equal; [apply chr_eq; lia|]. f_equal. apply chr_eq; lia.
Qed.

Lemma b64_encode_inj : forall a b, b64_encode a = b64_encode b -> a = b.
Proof.
  intros a b H. pose proof (b64_decode_encode a) as Ha. rewrite H, b64_decode_encode in Ha.
  now injection Ha.
Qed.

Fixpoint unpad (s : string) : string :=
  match s with
  | "" => ""
  | String c r => match unpad r with
                  | "" => if Ascii.eqb c "=" then "" else String c ""
                  | t => String c t
                  end
  end.

Lemma unpad_one : forall c r, Ascii.eqb c "=" = false -> unpad (String c r) = String c (unpad r).
Proof. intros c r H. cbn [unpad]. destruct (unpad r); [now rewrite H | reflexivity]. Qed.

Lemma dec6_npad : forall c n, dec6 c = Some n -> Ascii.eqb c "=" = false.
Proof. intros c n H. destruct (Ascii.eqb_spec c "="); [subst; discriminate|reflexivity]. Qed.

Lemma dec_two_inv : forall c1 c2 s, dec_two c1 c2 = Some s -> String c1 (String c2 "") = b64_encode s.
Proof.
  unfold dec_two. intros c1 c2 s H.
  destruct (dec6 c1) as [u|] eqn:E1; [|discriminate]. destruct (dec6 c2) as [v|] eqn:E2; [|discriminate].
  destruct (N.eqb_spec (v mod 16) 0) as [Hv|]; [|discriminate]. injection H as <-.
  apply dec6_inv in E1. apply dec6_inv in E2. destruct E1 as [L1 <-], E2 as [L2 <-].
  cbn [b64_encode]. rewrite code_chr by lia.
  f_equal; [f_equal; lia|]. f_equal. f_equal. lia.
Qed.

Lemma dec_three_inv : forall c1 c2 c3 s, dec_three c1 c2 c3 = Some s ->
  String c1 (String c2 (String c3 "")) = b64_encode s.
Proof.
  unfold dec_three. intros c1 c2 c3 s H.
  destruct (dec6 c1) as [u|] eqn:E1; [|discriminate]. destruct (dec6 c2) as [v|] eqn:E2; [|discriminate].
  destruct (dec6 c3) as [w|] eqn:E3; [|discriminate].
  destruct (N.eqb_spec (w mod 4) 0) as [Hv|]; [|discriminate]. injection H as <-.
  apply dec6_inv in E1. apply dec6_inv in E2. apply dec6_inv in E3.
  destruct E1 as [L1 <-], E2 as [L2 <-], E3 as [L3 <-].
  cbn [b64_encode]. rewrite !code_chr by lia.
  f_equal; [f_equal; lia|]. f_equal; [f_equal; lia|]. f_equal. f_equal. lia.
Qed.

Lemma unpad_enc : forall s, unpad (b64_encode s) = b64_encode s.
Proof.
  apply string_ind3.
  - reflexivity.
  - intros a. pose proof (code_lt a). cbn [b64_encode].
    rewrite !unpad_one by (apply enc6_not_eq; lia). reflexivity.
  - intros a b. pose proof (code_lt a). pose proof (code_lt b). cbn [b64_encode].
    rewrite !unpad_one by (apply enc6_not_eq; lia). reflexivity.
  - intros a b c r IH. pose proof (code_lt a). pose proof (code_lt b). pose proof (code_lt c). cbn [b64_encode].
    rewrite !unpad_one by (apply enc6_not_eq; lia). now rewrite IH.
Qed.

(** The decoder accepts only canonical encodings, up to trailing padding. *)
Lemma b64_decode_inv : forall t s, b64_decode t = Some s -> unpad t = b64_encode s.
Proof.
  apply (string_ind4 (fun t => forall s, b64_decode t = Some s -> unpad t = b64_encode s)).
  - intros s H. injection H as <-. reflexivity.
  - intros a s H. discriminate.
  - intros a b s H. cbn [b64_decode] in H. apply dec_two_inv in H. rewrite H. apply unpad_enc.
  - intros a b c s H. cbn [b64_decode] in H. destruct (Ascii.eqb_spec c "=") as [->|Hc].
    + apply dec_two_inv in H. rewrite <- H. pose proof (unpad_enc s) as Hu. rewrite <- H in Hu.
      cbn [unpad] in *. exact Hu.
    + apply dec_three_inv in H. rewrite H. apply unpad_enc.
  - intros a b c d r IH s H. cbn [b64_decode] in H.
    destruct (dec6 a) as [u|] eqn:E1, (dec6 b) as [v|] eqn:E2, (dec6 c) as [w|] eqn:E3, (dec6 d) as [x|] eqn:E4.
    1: { destruct (b64_decode r) as [t|] eqn:Er; [|discriminate]. injection H as <-.
         pose proof (dec6_npad _ _ E1). pose proof (dec6_npad _ _ E2).
         pose proof (dec6_npad _ _ E3). pose proof (dec6_npad _ _ E4).
         rewrite !unpad_one by assumption. rewrite (IH _ eq_refl).
         apply dec6_inv in E1. apply dec6_inv in E2. apply dec6_inv in E3. apply dec6_inv in E4.
         destruct E1 as [L1 <-], E2 as [L2 <-], E3 as [L3 <-], E4 as [L4 <-].
         cbn [b64_encode]. rewrite !code_chr by lia.
         f_equal; [f_equal; lia|]. f_equal; [f_equal; lia|]. f_equal; [f_equal; lia|]. f_equal. f_equal. lia. }
    all: destruct r as [|r0 r]; [|discriminate].
    all: destruct (Ascii.eqb_spec d "=") as [->|Hd]; [|discriminate].
    all: destruct (Ascii.eqb_spec c "=") as [->|Hc];
      [ apply dec_two_inv in H; rewrite <- H; pose proof (unpad_enc s) as Hu; rewrite <- H in Hu; exact Hu
      | apply dec_three_inv in H; rewrite <- H; pose proof (unpad_enc s) as Hu; rewrite <- H in Hu; exact Hu ].
Qed.

(** Two accepted texts with the same meaning differ only in padding. *)
Lemma b64_decode_unique : forall t1 t2 s, b64_decode t1 = Some s -> b64_decode t2 = Some s -> unpad t1 = unpad t2.
Proof. intros t1 t2 s H1 H2. now rewrite (b64_decode_inv _ _ H1), (b64_decode_inv _ _ H2). Qed.

(** Alphabet. *)
Definition b64_char (c : ascii) : bool := match dec6 c with Some _ => true | None => false end.
Lemma b64_encode_alphabet : forall s, sall b64_char (b64_encode s) = true.
Proof.
  assert (He : forall n, n < 64 -> b64_char (enc6 n) = true).
  { intros n Hn. unfold b64_char. now rewrite dec6_enc6. }
  apply string_ind3.
  - reflexivity.
  - intros a. pose proof (code_lt a). cbn [b64_encode sall]. rewrite !He by lia. reflexivity.
  - intros a b. pose proof (code_lt a). pose proof (code_lt b). cbn [b64_encode sall]. rewrite !He by lia. reflexivity.
  - intros a b c r IH. pose proof (code_lt a). pose proof (code_lt b). pose proof (code_lt c).
    cbn [b64_encode sall]. rewrite !He by lia. now rewrite IH.
Qed.

(** Length of the encoding. *)
Lemma b64_encode_length : forall s, (String.length (b64_encode s) = (4 * String.length s + 2) / 3)%nat.
Proof.
  apply string_ind3.
  - reflexivity.
  - reflexivity.
  - reflexivity.
  - intros a b c r IH. cbn [b64_encode String.length]. rewrite IH.
    replace (4 * S (S (S (String.length r))) + 2)%nat with (4 * String.length r + 2 + 4 * 3)%nat by lia.
    rewrite Nat.div_add by lia. lia.
Qed.
