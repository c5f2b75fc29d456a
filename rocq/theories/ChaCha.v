(** ChaCha20 block function, as used by [rand_chacha::ChaCha20Rng] (Cargo.toml:43) in [Message::seal]
    (src/messages/message.rs:506-508): [ChaCha20Rng::from_seed(Default::default())] is key 0, stream 0, counter 0,
    and [fill_bytes] of 32 bytes takes the first 32 bytes of the first block (words little endian). *)

From Coq Require Import Ascii String NArith List.
From Verif Require Import Bytes.
Import ListNotations.
Local Open Scope N_scope.

(** u32 arithmetic: src/messages/message.rs:506-508, crate rand_chacha (Cargo.toml:43). *)
Definition w32 (n : N) : N := N.land n 4294967295.
(** [wrapping_add] on u32: src/messages/message.rs:506-508, crate rand_chacha (Cargo.toml:43). *)
Definition add32 (a b : N) : N := w32 (a + b).
(** [rotate_left] on u32: src/messages/message.rs:506-508, crate rand_chacha (Cargo.toml:43). *)
Definition rotl32 (n : N) (x : N) : N := N.lor (w32 (N.shiftl x n)) (N.shiftr x (32 - n)).

(** Quarter round on four words. src/messages/message.rs:506-508, crate rand_chacha (Cargo.toml:43). *)
Definition quarter (a b c d : N) : N * N * N * N :=
  let a := add32 a b in let d := rotl32 16 (N.lxor d a) in
  let c := add32 c d in let b := rotl32 12 (N.lxor b c) in
  let a := add32 a b in let d := rotl32 8 (N.lxor d a) in
  let c := add32 c d in let b := rotl32 7 (N.lxor b c) in
  (a, b, c, d).

(** One column round followed by one diagonal round. src/messages/message.rs:506-508, crate rand_chacha
    (Cargo.toml:43). *)
Definition double_round (s : list N) : list N :=
  match s with
  | [x0; x1; x2; x3; x4; x5; x6; x7; x8; x9; x10; x11; x12; x13; x14; x15] =>
      let '(x0, x4, x8, x12) := quarter x0 x4 x8 x12 in
      let '(x1, x5, x9, x13) := quarter x1 x5 x9 x13 in
      let '(x2, x6, x10, x14) := quarter x2 x6 x10 x14 in
      let '(x3, x7, x11, x15) := quarter x3 x7 x11 x15 in
      let '(x0, x5, x10, x15) := quarter x0 x5 x10 x15 in
      let '(x1, x6, x11, x12) := quarter x1 x6 x11 x12 in
      let '(x2, x7, x8, x13) := quarter x2 x7 x8 x13 in
      let '(x3, x4, x9, x14) := quarter x3 x4 x9 x14 in
      [x0; x1; x2; x3; x4; x5; x6; x7; x8; x9; x10; x11; x12; x13; x14; x15]
  | _ => s
  end.

(** Little endian bytes of a word. src/messages/message.rs:506-508, crate rand_chacha (Cargo.toml:43). *)
Definition le4 (w : N) : string :=
  String (chr (w mod 256)) (String (chr (w / 256 mod 256))
    (String (chr (w / 65536 mod 256)) (String (chr (w / 16777216 mod 256)) ""))).

(** Key stream block for an 8-word key, 64-bit counter and 64-bit stream number (both given as words).
    src/messages/message.rs:506-508, crate rand_chacha (Cargo.toml:43). *)
Definition chacha_block (key : list N) (ctr str : N * N) : string :=
  let init := ([1634760805; 857760878; 2036477234; 1797285236] ++ key
               ++ [fst ctr; snd ctr; fst str; snd str])%list in
  let fin := Nat.iter 10 double_round init in
  String.concat "" (map le4 (map (fun ab => add32 (fst ab) (snd ab)) (combine fin init))).

(** src/messages/message.rs:506-508: the content encryption key. *)
Definition seal_cek : string := take 32 (chacha_block (repeat 0 8) (0, 0) (0, 0)).
