(** What the standards say about the hash functions and ciphers, stated by indices and numbers. Used by C71; the model does not use it. *)

From Coq Require Import Ascii String Arith NArith List Bool.
Import ListNotations.
Local Open Scope N_scope.

(** ** Bytes *)

Definition byte_at (s : string) (i : nat) : N := match String.get i s with Some c => N_of_ascii c | None => 0 end.
Definition byte (x : N) : string := String (ascii_of_N x) "".
(** The number of [k] bytes from position [off] on, most significant first. *)
Definition be_at (k : nat) (s : string) (off : nat) : N := fold_left (fun a i => a * 256 + byte_at s (off + i)) (seq 0 k) 0.
(** [k] bytes of a number, most significant first. *)
Fixpoint big_endian (k : nat) (x : N) : string :=
  match k with O => "" | S k' => (big_endian k' (x / 256) ++ byte (x mod 256))%string end.
Fixpoint zero_bytes (k : nat) : string := match k with O => "" | S k' => (byte 0 ++ zero_bytes k')%string end.

(** ** SHA-2, FIPS 180-4 *)

(** Word size in bits and in bytes, rounds, the rotations of the four functions, bytes of the length. *)
Record sha2 := { wb : N; wy : nat; nr : nat; big0 : N * N * N; big1 : N * N * N; small0 : N * N * N; small1 : N * N * N; ly : nat }.
(** Rotation to the right. *)
Definition rotate (w n x : N) : N := x / 2 ^ n + (x mod 2 ^ n) * 2 ^ (w - n).
Definition big_sigma (w : N) (r : N * N * N) (x : N) : N :=
  let '(a, b, c) := r in N.lxor (N.lxor (rotate w a x) (rotate w b x)) (rotate w c x).
Definition small_sigma (w : N) (r : N * N * N) (x : N) : N :=
  let '(a, b, c) := r in N.lxor (N.lxor (rotate w a x) (rotate w b x)) (x / 2 ^ c).
Definition choose (e f g : N) : N := N.lor (N.land e f) (N.ldiff g e).
Definition majority (a b c : N) : N := N.lor (N.lor (N.land a b) (N.land a c)) (N.land b c).
Definition sha2_step (P : sha2) (k w : N) (st : list N) : list N :=
  match st with
  | [a; b; c; d; e; f; g; h] =>
      let t1 := h + big_sigma (wb P) (big1 P) e + choose e f g + k + w in
      let t2 := big_sigma (wb P) (big0 P) a + majority a b c in
      [(t1 + t2) mod 2 ^ wb P; a; b; c; (d + t1) mod 2 ^ wb P; e; f; g]
  | _ => st
  end.
Definition sha2_block (P : sha2) (K H M H' : list N) : Prop := exists (W : nat -> N) (st : nat -> list N),
  (forall t, (t < 16)%nat -> W t = nth t M 0) /\
  (forall t, (16 <= t < nr P)%nat -> W t = (small_sigma (wb P) (small1 P) (W (t - 2)%nat) + W (t - 7)%nat + small_sigma (wb P) (small0 P) (W (t - 15)%nat) + W (t - 16)%nat) mod 2 ^ wb P) /\
  st O = H /\ (forall t, (t < nr P)%nat -> st (S t) = sha2_step P (nth t K 0) (W t) (st t)) /\
  H' = map (fun xy => (fst xy + snd xy) mod 2 ^ wb P) (combine H (st (nr P))).
Definition sha2_padded (P : sha2) (s padded : string) : Prop := exists z, (z < 16 * wy P)%nat /\
  padded = (s ++ byte 128 ++ zero_bytes z ++ big_endian (ly P) (8 * N.of_nat (String.length s)))%string.
Definition sha2_hash (P : sha2) (K H0 : list N) (s out : string) : Prop := exists (n : nat) (padded : string) (H : nat -> list N),
  sha2_padded P s padded /\ String.length padded = (16 * wy P * n)%nat /\ H O = H0 /\
  (forall i, (i < n)%nat -> sha2_block P K (H i) (map (fun j => be_at (wy P) padded (16 * wy P * i + wy P * j)) (seq 0 16)) (H (S i))) /\
  out = String.concat "" (map (big_endian (wy P)) (H n)).
Definition sha2_256 : sha2 :=
  {| wb := 32; wy := 4; nr := 64; big0 := (2, 13, 22); big1 := (6, 11, 25); small0 := (7, 18, 3); small1 := (17, 19, 10); ly := 8 |}.
Definition sha2_512 : sha2 :=
  {| wb := 64; wy := 8; nr := 80; big0 := (28, 34, 39); big1 := (14, 18, 41); small0 := (1, 8, 7); small1 := (19, 61, 6); ly := 16 |}.
(** The first [w] bits of the fractional part of the [e]-th root of [p]. *)
Definition root_bits (e w p c : N) : Prop := c < 2 ^ w /\ exists q, (q * 2 ^ w + c) ^ e <= p * 2 ^ (w * e) < (q * 2 ^ w + c + 1) ^ e.
Definition is_prime (p : N) : Prop := 1 < p /\ forall a b, a * b = p -> a = 1 \/ b = 1.
(** [l] are the primes up to its last element, in order. *)
Fixpoint rising (a : N) (l : list N) : Prop := match l with [] => True | x :: r => a < x /\ rising x r end.
Definition first_primes (l : list N) : Prop := rising 0 l /\ forall p, In p l <-> is_prime p /\ p <= last l 0.

(** ** Polynomials over two elements: bit [i] of a number is the coefficient of [x^i] *)

Fixpoint times_pos (a : N) (b : positive) : N :=
  match b with xH => a | xO b' => 2 * times_pos a b' | xI b' => N.lxor a (2 * times_pos a b') end.
Definition times (a b : N) : N := match b with N0 => 0 | Npos b' => times_pos a b' end.
(** [z] is the remainder of [x] modulo [m], which has degree [n]. *)
Definition remainder (n m x z : N) : Prop := z < 2 ^ n /\ exists q, x = N.lxor z (times q m).

(** ** AES-256, FIPS 197 *)

(** Multiplication of bytes, modulo [x^8 + x^4 + x^3 + x + 1]. *)
Definition gf8 (a b c : N) : Prop := remainder 8 283 (times a b) c.
(** SubBytes: the inverse, or 0, then an affine map of the bits. *)
Definition is_sub (x y : N) : Prop := y < 256 /\ exists v, v < 256 /\ (x = 0 /\ v = 0 \/ gf8 x v 1) /\
  forall i, i < 8 -> N.testbit y i = xorb (xorb (xorb (xorb (xorb (N.testbit v i) (N.testbit v ((i + 4) mod 8))) (N.testbit v ((i + 5) mod 8))) (N.testbit v ((i + 6) mod 8)))
    (N.testbit v ((i + 7) mod 8))) (N.testbit 99 i).
Definition at_ (s : list N) (i : nat) : N := nth i s 0.
(** SubBytes and ShiftRows; position [r + 4 c] is row [r], column [c]. *)
Definition sub_shift (sub : N -> N) (s : list N) : list N :=
  map (fun i => sub (at_ s (i mod 4 + 4 * ((i / 4 + i mod 4) mod 4))%nat)) (seq 0 16).
(** MixColumns: every entry is 2, 3, 1 and 1 times the entries of its column from there on. *)
Definition mixed (s t : list N) : Prop := List.length t = 16%nat /\ forall r c, (r < 4)%nat -> (c < 4)%nat -> exists u v,
  gf8 2 (at_ s (r + 4 * c)) u /\ gf8 3 (at_ s ((r + 1) mod 4 + 4 * c)) v /\
  at_ t (r + 4 * c) = N.lxor (N.lxor u v) (N.lxor (at_ s ((r + 2) mod 4 + 4 * c)) (at_ s ((r + 3) mod 4 + 4 * c))).
(** AddRoundKey with the words from [4 r] on. *)
Definition word_byte (x : N) (j : nat) : N := x / 256 ^ N.of_nat (3 - j) mod 256.
Definition with_key (w : nat -> N) (r : nat) (s : list N) : list N :=
  map (fun i => N.lxor (at_ s i) (word_byte (w (4 * r + i / 4)%nat) (i mod 4))) (seq 0 16).
Definition sub_each (sub : N -> N) (x : N) : N :=
  fold_left (fun a j => a * 256 + sub (word_byte x j)) (seq 0 4) 0.
Definition rot_word (x : N) : N := x mod 2 ^ 24 * 256 + x / 2 ^ 24.
Definition key_words (sub : N -> N) (key : string) (w : nat -> N) : Prop :=
  (forall i, (i < 8)%nat -> w i = be_at 4 key (4 * i)) /\
  (forall i, (8 <= i < 60)%nat -> w i = N.lxor (w (i - 8)%nat)
    (if (i mod 8 =? 0)%nat then N.lxor (sub_each sub (rot_word (w (i - 1)%nat))) (2 ^ (N.of_nat (i / 8) - 1) * 2 ^ 24)
     else if (i mod 8 =? 4)%nat then sub_each sub (w (i - 1)%nat) else w (i - 1)%nat)).
Definition is_aes (key block out : string) : Prop := exists (sub : N -> N) (w : nat -> N) (s : nat -> list N),
  (forall x, x < 256 -> is_sub x (sub x)) /\ key_words sub key w /\
  s O = with_key w 0 (map (byte_at block) (seq 0 16)) /\
  (forall r, (1 <= r <= 13)%nat -> exists t, mixed (sub_shift sub (s (r - 1)%nat)) t /\ s r = with_key w r t) /\
  String.length out = 16%nat /\ map (byte_at out) (seq 0 16) = with_key w 14 (sub_shift sub (s 13%nat)).

(** ** GCM, NIST SP 800-38D *)

(** Blocks are polynomials with the coefficient of [x^0] in the highest bit. *)
Definition mirrored (x y : N) : Prop := y < 2 ^ 128 /\ forall i, i < 128 -> N.testbit y i = N.testbit x (127 - i).
(** Multiplication of blocks, modulo [x^128 + x^7 + x^2 + x + 1]. *)
Definition gf128 (a b c : N) : Prop := exists a' b' c', c < 2 ^ 128 /\ mirrored a a' /\ mirrored b b' /\ mirrored c c' /\ remainder 128 (2 ^ 128 + 135) (times a' b') c'.
(** The text followed by zero bytes up to a multiple of 16. *)
Definition padded16 (s t : string) : Prop := exists z n, (z < 16)%nat /\ t = (s ++ zero_bytes z)%string /\ String.length t = (16 * n)%nat.
Definition is_ghash (h : N) (s : string) (y : N) : Prop := exists (n : nat) (v : nat -> N), String.length s = (16 * n)%nat /\ v O = 0 /\
  (forall i, (i < n)%nat -> gf128 (N.lxor (v i) (be_at 16 s (16 * i))) h (v (S i))) /\ y = v n.
Definition is_gcm (key nonce ad text out : string) : Prop := exists (E : string -> string) (y : N) (ad16 c16 : string),
  let c := substring 0 (String.length text) out in
  (forall b, String.length b = 16%nat -> is_aes key b (E b)) /\
  padded16 ad ad16 /\ padded16 c c16 /\
  is_ghash (be_at 16 (E (zero_bytes 16)) 0)
    (ad16 ++ c16 ++ big_endian 8 (8 * N.of_nat (String.length ad)) ++ big_endian 8 (8 * N.of_nat (String.length text)))%string y /\
  String.length out = (String.length text + 16)%nat /\
  (forall j, (j < String.length text)%nat -> byte_at out j = N.lxor (byte_at text j) (byte_at (E (nonce ++ big_endian 4 (2 + N.of_nat (j / 16)))%string) (j mod 16))) /\
  be_at 16 out (String.length text) = N.lxor y (be_at 16 (E (nonce ++ big_endian 4 1)%string) 0).

(** ** ChaCha20 and Poly1305, RFC 8439 and draft-irtf-cfrg-xchacha *)

Definition le_at (k : nat) (s : string) (off : nat) : N := fold_right (fun i a => byte_at s (off + i) + 256 * a) 0 (seq 0 k).
Definition update (st : nat -> N) (i : nat) (x : N) : nat -> N := fun j => if (j =? i)%nat then x else st j.
Definition rotate_left (n x : N) : N := (x * 2 ^ n) mod 2 ^ 32 + x / 2 ^ (32 - n).
Definition half (st : nat -> N) (a b d : nat) (n : N) : nat -> N :=
  let st1 := update st a ((st a + st b) mod 2 ^ 32) in update st1 d (rotate_left n (N.lxor (st1 d) (st1 a))).
Definition quarter_round (st : nat -> N) (q : nat * nat * nat * nat) : nat -> N :=
  let '(a, b, c, d) := q in half (half (half (half st a b d 16) c d b 12) a b d 8) c d b 7.
Definition two_rounds : list (nat * nat * nat * nat) :=
  [(0, 4, 8, 12); (1, 5, 9, 13); (2, 6, 10, 14); (3, 7, 11, 15); (0, 5, 10, 15); (1, 6, 11, 12); (2, 7, 8, 13); (3, 4, 9, 14)]%nat.
Fixpoint rounds (n : nat) (st : nat -> N) : nat -> N := match n with O => st | S n' => rounds n' (fold_left quarter_round two_rounds st) end.
(** The words of the constant, the key and 16 more bytes. *)
Definition chacha_start (key more : string) : nat -> N := fun i => le_at 4 ("expand 32-byte k" ++ key ++ more)%string (4 * i).
Definition is_chacha_block (key more out : string) : Prop := String.length out = 64%nat /\ forall i, (i < 16)%nat ->
  le_at 4 out (4 * i) = (rounds 10 (chacha_start key more) i + chacha_start key more i) mod 2 ^ 32.
Definition is_hchacha (key nonce out : string) : Prop := String.length out = 32%nat /\ forall i, (i < 4)%nat ->
  le_at 4 out (4 * i) = rounds 10 (chacha_start key nonce) i /\ le_at 4 out (16 + 4 * i) = rounds 10 (chacha_start key nonce) (12 + i)%nat.
(** [k] bytes of a number, least significant first. *)
Fixpoint little_endian (k : nat) (x : N) : string :=
  match k with O => "" | S k' => (byte (x mod 256) ++ little_endian k' (x / 256))%string end.
(** The bits of the first half of the key that Poly1305 clears: the upper four of every fourth byte, the lower two of the bytes 4, 8 and 12. *)
Definition cleared (i : N) : bool :=
  ((28 <=? i) && (i <? 34) || (60 <=? i) && (i <? 66) || (92 <=? i) && (i <? 98) || (124 <=? i))%bool%N.
(** The polynomial with the numbers of the blocks of 16 bytes as coefficients, the first one highest, at [r]; constant term 0. *)
Fixpoint value_at (r : N) (l : list N) : N := match l with [] => 0 | b :: l' => b * r ^ N.of_nat (List.length l) + value_at r l' end.
Definition is_poly1305 (key msg tag : string) : Prop := exists r blocks,
  (forall i, N.testbit r i = (N.testbit (le_at 16 key 0) i && negb (cleared i))%bool) /\
  List.length blocks = (String.length msg / 16)%nat /\ (String.length msg mod 16 = 0)%nat /\
  (forall i, (i < List.length blocks)%nat -> nth i blocks 0 = le_at 16 msg (16 * i) + 2 ^ 128) /\
  tag = little_endian 16 ((value_at r blocks mod (2 ^ 130 - 5) + le_at 16 key 16) mod 2 ^ 128).
Definition is_xc20p (key nonce ad text out : string) : Prop := exists (inner ad16 c16 : string) (block : nat -> string),
  let c := substring 0 (String.length text) out in
  is_hchacha key (substring 0 16 nonce) inner /\
  (forall i, (i <= String.length text / 64 + 1)%nat -> is_chacha_block inner (little_endian 4 (N.of_nat i) ++ zero_bytes 4 ++ substring 16 8 nonce) (block i)) /\
  padded16 ad ad16 /\ padded16 c c16 /\
  String.length out = (String.length text + 16)%nat /\
  (forall j, (j < String.length text)%nat -> byte_at out j = N.lxor (byte_at text j) (byte_at (block (1 + j / 64)%nat) (j mod 64))) /\
  is_poly1305 (substring 0 32 (block O))
    (ad16 ++ c16 ++ little_endian 8 (N.of_nat (String.length ad)) ++ little_endian 8 (N.of_nat (String.length text)))
    (substring (String.length text) 16 out).
