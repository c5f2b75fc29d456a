(** SHA-256 (crate sha2 0.8, Cargo.toml:36), used by [concat_kdf] (src/messages/helpers/encryption.rs:276-279). *)

From Coq Require Import Ascii String NArith List.
From Verif Require Import Bytes ChaCha.
Import ListNotations.
Local Open Scope N_scope.

(** [rotate_right] on u32: src/messages/helpers/encryption.rs:276-279, crate sha2 (Cargo.toml:36). *)
Definition rotr32 (n : N) (x : N) : N := N.lor (N.shiftr x n) (w32 (N.shiftl x (32 - n))).

(** Round constants: src/messages/helpers/encryption.rs:276-279, crate sha2 (Cargo.toml:36). *)
Definition k256 : list N :=
  [1116352408; 1899447441; 3049323471; 3921009573; 961987163; 1508970993; 2453635748; 2870763221;
   3624381080; 310598401; 607225278; 1426881987; 1925078388; 2162078206; 2614888103; 3248222580;
   3835390401; 4022224774; 264347078; 604807628; 770255983; 1249150122; 1555081692; 1996064986;
   2554220882; 2821834349; 2952996808; 3210313671; 3336571891; 3584528711; 113926993; 338241895;
   666307205; 773529912; 1294757372; 1396182291; 1695183700; 1986661051; 2177026350; 2456956037;
   2730485921; 2820302411; 3259730800; 3345764771; 3516065817; 3600352804; 4094571909; 275423344;
   430227734; 506948616; 659060556; 883997877; 958139571; 1322822218; 1537002063; 1747873779;
   1955562222; 2024104815; 2227730452; 2361852424; 2428436474; 2756734187; 3204031479; 3329325298].

(** Initial state: src/messages/helpers/encryption.rs:276-279, crate sha2 (Cargo.toml:36). *)
Definition h0_256 : list N :=
  [1779033703; 3144134277; 1013904242; 2773480762; 1359893119; 2600822924; 528734635; 1541459225].

(** Big endian word of four bytes, and back. src/messages/helpers/encryption.rs:276-279, crate sha2 (Cargo.toml:36).
    *)
Definition be_word (a b c d : ascii) : N := ((code a * 256 + code b) * 256 + code c) * 256 + code d.
(** Big endian bytes of a word: src/messages/helpers/encryption.rs:276-279, crate sha2 (Cargo.toml:36). *)
Definition be4 (w : N) : string :=
  String (chr (w / 16777216 mod 256)) (String (chr (w / 65536 mod 256))
    (String (chr (w / 256 mod 256)) (String (chr (w mod 256)) ""))).

(** Words of a byte string: src/messages/helpers/encryption.rs:276-279, crate sha2 (Cargo.toml:36). *)
Fixpoint words (s : string) : list N :=
  match s with
  | String a (String b (String c (String d r))) => be_word a b c d :: words r
  | _ => []
  end.

(** Message schedule, newest word first: [w] holds the words so far. src/messages/helpers/encryption.rs:276-279, crate
    sha2 (Cargo.toml:36). *)
Definition sched_step (w : list N) : list N :=
  let g i := nth i w 0 in
  let w15 := g 14%nat in let w2 := g 1%nat in
  let s0 := N.lxor (N.lxor (rotr32 7 w15) (rotr32 18 w15)) (N.shiftr w15 3) in
  let s1 := N.lxor (N.lxor (rotr32 17 w2) (rotr32 19 w2)) (N.shiftr w2 10) in
  add32 (add32 (g 15%nat) s0) (add32 (g 6%nat) s1) :: w.

(** The 64 words of a block: src/messages/helpers/encryption.rs:276-279, crate sha2 (Cargo.toml:36). *)
Definition schedule (block : list N) : list N := rev (Nat.iter 48 sched_step (rev block)).

(** One round: src/messages/helpers/encryption.rs:276-279, crate sha2 (Cargo.toml:36). *)
Definition round256 (st : list N) (kw : N * N) : list N :=
  match st with
  | [a; b; c; d; e; f; g; h] =>
      let s1 := N.lxor (N.lxor (rotr32 6 e) (rotr32 11 e)) (rotr32 25 e) in
      let ch := N.lxor (N.land e f) (N.land (N.lxor e 4294967295) g) in
      let t1 := add32 (add32 (add32 h s1) (add32 ch (fst kw))) (snd kw) in
      let s0 := N.lxor (N.lxor (rotr32 2 a) (rotr32 13 a)) (rotr32 22 a) in
      let mj := N.lxor (N.lxor (N.land a b) (N.land a c)) (N.land b c) in
      [add32 t1 (add32 s0 mj); a; b; c; add32 d t1; e; f; g]
  | _ => st
  end.

(** One block: src/messages/helpers/encryption.rs:276-279, crate sha2 (Cargo.toml:36). *)
Definition compress (st : list N) (block : list N) : list N :=
  map (fun ab => add32 (fst ab) (snd ab)) (combine st (fold_left round256 (combine k256 (schedule block)) st)).

(** Groups of 16 words: src/messages/helpers/encryption.rs:276-279, crate sha2 (Cargo.toml:36). *)
Fixpoint blocks (n : nat) (ws : list N) : list (list N) :=
  match n with
  | O => []
  | S n' => firstn 16 ws :: blocks n' (skipn 16 ws)
  end.

(** Zero bytes: src/messages/helpers/encryption.rs:276-279, crate sha2 (Cargo.toml:36). *)
Fixpoint zeros (n : nat) : string := match n with O => "" | S n' => String (chr 0) (zeros n') end.

(** Padding: 128, zeros, 64-bit length in bits. src/messages/helpers/encryption.rs:276-279, crate sha2
    (Cargo.toml:36). *)
Definition pad256 (s : string) : string :=
  let l := N.of_nat (String.length s) in
  let z := (119 - l mod 64) mod 64 in
  (s ++ String (chr 128) (zeros (N.to_nat z)) ++ be4 (l * 8 / 4294967296) ++ be4 (w32 (l * 8)))%string.

(** Hash of a byte string: src/messages/helpers/encryption.rs:276-279, crate sha2 (Cargo.toml:36). *)
Definition sha256 (s : string) : string :=
  let ws := words (pad256 s) in
  String.concat "" (map be4 (fold_left compress (blocks (Nat.div (List.length ws) 16) ws) h0_256)).
