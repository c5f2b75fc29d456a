(** Laws of the cryptographic primitives that round-trip theorems take as hypotheses, and a small environment that
    satisfies all of them (so the hypotheses are not contradictory). Nothing here is an axiom. *)

From Coq Require Import Ascii String Arith NArith List Bool Permutation Lia.
From Verif Require Import Bytes BytesFacts Json JsonFacts Value Types Message Envelope Sha256 Spec.
Import ListNotations.
Local Open Scope string_scope.

(** X25519 on 32 byte strings (crate x25519-dalek). *)
Record dh_ok (E : env) : Prop := {
  dh_len : forall s, String.length s = 32 -> String.length (x_pub E s) = 32;
  dh_comm : forall a b, String.length a = 32 -> String.length b = 32 -> x_dh E a (x_pub E b) = x_dh E b (x_pub E a);
}.

(** Authenticated encryption (crates chacha20poly1305, aes-gcm): decryption inverts encryption; the output carries a tag of
    16 bytes. *)
Record aead_ok (enc dec : string -> string -> string -> string -> option string) : Prop := {
  ae_correct : forall k n a p c, enc k n a p = Some c -> dec k n a c = Some p;
  ae_tag : forall k n a p c, enc k n a p = Some c -> 16 <= String.length c;
}.
(** A ciphertext is not accepted with another content under any other key (idealisation: in reality up to a negligible
    probability). Needed only where entries meant for other recipients are tried first. *)
Definition aead_bound (enc dec : string -> string -> string -> string -> option string) : Prop :=
  forall k n a p c k' n' a' p', enc k n a p = Some c -> dec k' n' a' c = Some p' -> p' = p.

Record crypto_ok (E : env) : Prop := {
  co_dh : dh_ok E;
  co_xc : aead_ok (xc_enc E) (xc_dec E);
  co_gcm : aead_ok (gcm_enc E) (gcm_dec E);
}.
Record crypto_bound (E : env) : Prop := {
  cb_xc : aead_bound (xc_enc E) (xc_dec E);
  cb_gcm : aead_bound (gcm_enc E) (gcm_dec E);
}.

(** A matching key pair of a signature algorithm. *)
Definition key_pair (E : env) (a : signature_algorithm) (sk pk : string) : Prop :=
  forall msg s, sig_sign E a sk msg = Some s -> sig_verify E a pk msg s = Some true.

(** ** An environment that satisfies the laws *)

Fixpoint sxor (a b : string) : string :=
  match a, b with
  | String x a', String y b' => String (chr (N.lxor (code x) (code y))) (sxor a' b')
  | _, _ => ""
  end.
Definition toy_tag (k n a p : string) : string := take 16 (sha256 (k ++ n ++ a ++ p)).
Definition toy_enc (k n a p : string) : option string := Some (p ++ toy_tag k n a p).
Definition toy_dec (k n a c : string) : option string :=
  if (String.length c <? 16)%nat then None
  else let p := take (String.length c - 16) c in
       if String.eqb (drop (String.length c - 16) c) (toy_tag k n a p) then Some p else None.
Fixpoint srepeat (n : nat) (c : ascii) : string := match n with O => "" | S n' => String c (srepeat n' c) end.
Definition toy_doc (k : string) : did_doc :=
  {| doc_key := fun c => if String.eqb c "X25519" then Some k else None;
     doc_key_id := fun c => if String.eqb c "X25519" then Some "did:toy:key#1" else None |}.
Definition toy : env := {|
  x_pub := fun s => s;
  x_dh := sxor;
  xc_enc := toy_enc; xc_dec := toy_dec; gcm_enc := toy_enc; gcm_dec := toy_dec;
  cbc_enc := fun k iv m => m;
  sig_sign := fun a k m => Some (sha256 (k ++ m));
  sig_verify := fun a k m s => Some (String.eqb s (sha256 (k ++ m)));
  resolve := fun did =>
    if String.eqb did "did:toy:alice" then Some (toy_doc (srepeat 32 "a"))
    else if String.eqb did "did:toy:bob" then Some (toy_doc (srepeat 32 "b")) else None;
  fl := fun t => match tok_int t with None => Some t | Some _ => None end;
  ho := fun k V l => if Nat.even k then l else rev l;
|}.

Lemma be4_length : forall n, String.length (be4 n) = 4.
Proof. reflexivity. Qed.
Lemma round256_length : forall st kw, List.length st = 8 -> List.length (round256 st kw) = 8.
Proof.
  intros st kw H. unfold round256. destruct st as [|a [|b [|c [|d [|e [|f [|g [|h [|i st]]]]]]]]]; try discriminate; reflexivity.
Qed.
Lemma fold_round_length : forall l st, List.length st = 8 -> List.length (fold_left round256 l st) = 8.
Proof. induction l as [|x l IH]; intros st H; [exact H|]. cbn [fold_left]. apply IH. now apply round256_length. Qed.
Lemma compress_length : forall st b, List.length st = 8 -> List.length (compress st b) = 8.
Proof.
  intros st b H. unfold compress. rewrite map_length, combine_length, fold_round_length by exact H. rewrite H. reflexivity.
Qed.
Lemma fold_compress_length : forall l st, List.length st = 8 -> List.length (fold_left compress l st) = 8.
Proof. induction l as [|x l IH]; intros st H; [exact H|]. cbn [fold_left]. apply IH. now apply compress_length. Qed.
Lemma concat_be4_length : forall l, String.length (String.concat "" (map be4 l)) = 4 * List.length l.
Proof.
  induction l as [|x l IH]; [reflexivity|]. destruct l as [|y l]; [reflexivity|].
  change (String.concat "" (map be4 (x :: y :: l))) with (be4 x ++ "" ++ String.concat "" (map be4 (y :: l))).
  rewrite !slen_app, be4_length, IH. cbn [String.length List.length]. lia.
Qed.
(** SHA-256 yields 32 bytes. *)
Lemma sha256_length : forall s, String.length (sha256 s) = 32.
Proof.
  intros s. unfold sha256. rewrite concat_be4_length, fold_compress_length; reflexivity.
Qed.

Lemma sxor_comm : forall a b, sxor a b = sxor b a.
Proof. induction a as [|x a IH]; intros [|y b]; cbn; try reflexivity. now rewrite N.lxor_comm, IH. Qed.
Lemma toy_tag_length : forall k n a p, String.length (toy_tag k n a p) = 16.
Proof. intros. unfold toy_tag. apply take_length. rewrite sha256_length. lia. Qed.
Lemma toy_aead : aead_ok toy_enc toy_dec.
Proof.
  split; unfold toy_enc, toy_dec; intros k n a p c H; injection H as <-.
  - rewrite slen_app, toy_tag_length. destruct (Nat.ltb_spec (String.length p + 16) 16); [lia|].
    replace (String.length p + 16 - 16) with (String.length p) by lia. rewrite take_app, drop_app, String.eqb_refl. reflexivity.
  - rewrite slen_app, toy_tag_length. lia.
Qed.
Lemma toy_bound : aead_bound toy_enc toy_dec.
Proof.
  unfold aead_bound, toy_enc, toy_dec. intros k n a p c k' n' a' p' H. injection H as <-.
  rewrite slen_app, toy_tag_length. destruct (Nat.ltb_spec (String.length p + 16) 16); [lia|].
  replace (String.length p + 16 - 16) with (String.length p) by lia. rewrite take_app, drop_app.
  destruct (String.eqb _ _); [|discriminate]. intros H0. now injection H0 as <-.
Qed.
Lemma toy_crypto : crypto_ok toy.
Proof.
  split; [|exact toy_aead|exact toy_aead]. split.
  - intros s H. exact H.
  - intros a b _ _. apply sxor_comm.
Qed.
Lemma toy_crypto_bound : crypto_bound toy.
Proof. split; exact toy_bound. Qed.
Lemma toy_key_pair : forall a k, key_pair toy a k k.
Proof. intros a k msg s H. cbn in *. injection H as <-. now rewrite String.eqb_refl. Qed.
Lemma toy_env : env_ok toy.
Proof.
  split.
  - intros k V l. cbn. destruct (Nat.even k); [apply Permutation_refl | apply Permutation_sym, Permutation_rev].
  - intros t t' H E. cbn in E. destruct (tok_int t) eqn:ET; [discriminate|]. injection E as <-. now split.
Qed.
