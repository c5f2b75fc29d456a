(** SHA-512 (FIPS 180-4), crate sha2 behind ed25519-dalek (Cargo.toml:29), used for the signatures of src/crypto/signer.rs:30-37, 69-76. *)

From Coq Require Import Ascii String NArith List.
From Verif Require Import Bytes ChaCha Sha256.
Import ListNotations.
Local Open Scope N_scope.

(** Word of 64 bits: crate sha2 behind ed25519-dalek (Cargo.toml:29). *)
Definition w64 (x : N) : N := x mod 18446744073709551616.
(** Sum of words: crate sha2 behind ed25519-dalek (Cargo.toml:29). *)
Definition add64 (x y : N) : N := w64 (x + y).
(** [rotate_right] on u64: crate sha2 behind ed25519-dalek (Cargo.toml:29). *)
Definition rotr64 (n : N) (x : N) : N := N.lor (N.shiftr x n) (w64 (N.shiftl x (64 - n))).

(** Round constants: crate sha2 behind ed25519-dalek (Cargo.toml:29). *)
Definition k512 : list N :=
  [4794697086780616226; 8158064640168781261; 13096744586834688815; 16840607885511220156;
   4131703408338449720; 6480981068601479193; 10538285296894168987; 12329834152419229976;
   15566598209576043074; 1334009975649890238; 2608012711638119052; 6128411473006802146;
   8268148722764581231; 9286055187155687089; 11230858885718282805; 13951009754708518548;
   16472876342353939154; 17275323862435702243; 1135362057144423861; 2597628984639134821;
   3308224258029322869; 5365058923640841347; 6679025012923562964; 8573033837759648693;
   10970295158949994411; 12119686244451234320; 12683024718118986047; 13788192230050041572;
   14330467153632333762; 15395433587784984357; 489312712824947311; 1452737877330783856;
   2861767655752347644; 3322285676063803686; 5560940570517711597; 5996557281743188959;
   7280758554555802590; 8532644243296465576; 9350256976987008742; 10552545826968843579;
   11727347734174303076; 12113106623233404929; 14000437183269869457; 14369950271660146224;
   15101387698204529176; 15463397548674623760; 17586052441742319658; 1182934255886127544;
   1847814050463011016; 2177327727835720531; 2830643537854262169; 3796741975233480872;
   4115178125766777443; 5681478168544905931; 6601373596472566643; 7507060721942968483;
   8399075790359081724; 8693463985226723168; 9568029438360202098; 10144078919501101548;
   10430055236837252648; 11840083180663258601; 13761210420658862357; 14299343276471374635;
   14566680578165727644; 15097957966210449927; 16922976911328602910; 17689382322260857208;
   500013540394364858; 748580250866718886; 1242879168328830382; 1977374033974150939;
   2944078676154940804; 3659926193048069267; 4368137639120453308; 4836135668995329356;
   5532061633213252278; 6448918945643986474; 6902733635092675308; 7801388544844847127].
(** Initial state: crate sha2 behind ed25519-dalek (Cargo.toml:29). *)
Definition h0_512 : list N :=
  [7640891576956012808; 13503953896175478587; 4354685564936845355; 11912009170470909681;
   5840696475078001361; 11170449401992604703; 2270897969802886507; 6620516959819538809].

(** Pairs of big endian words of four bytes: crate sha2 behind ed25519-dalek (Cargo.toml:29). *)
Fixpoint words64 (l : list N) : list N :=
  match l with
  | a :: b :: r => a * 4294967296 + b :: words64 r
  | _ => []
  end.
(** Big endian bytes of a word: crate sha2 behind ed25519-dalek (Cargo.toml:29). *)
Definition be8 (w : N) : string := (be4 (w / 4294967296) ++ be4 (w mod 4294967296))%string.

(** Message schedule, newest word first: [w] holds the words so far. Crate sha2 behind ed25519-dalek (Cargo.toml:29). *)
Definition sched512 (w : list N) : list N :=
  let g i := nth i w 0 in
  let w15 := g 14%nat in let w2 := g 1%nat in
  let s0 := N.lxor (N.lxor (rotr64 1 w15) (rotr64 8 w15)) (N.shiftr w15 7) in
  let s1 := N.lxor (N.lxor (rotr64 19 w2) (rotr64 61 w2)) (N.shiftr w2 6) in
  add64 (add64 (g 15%nat) s0) (add64 (g 6%nat) s1) :: w.
(** The 80 words of a block: crate sha2 behind ed25519-dalek (Cargo.toml:29). *)
Definition schedule512 (block : list N) : list N := rev (Nat.iter 64 sched512 (rev block)).

(** One round: crate sha2 behind ed25519-dalek (Cargo.toml:29). *)
Definition round512 (st : list N) (kw : N * N) : list N :=
  match st with
  | [a; b; c; d; e; f; g; h] =>
      let s1 := N.lxor (N.lxor (rotr64 14 e) (rotr64 18 e)) (rotr64 41 e) in
      let ch := N.lxor (N.land e f) (N.land (N.lxor e 18446744073709551615) g) in
      let t1 := add64 (add64 (add64 h s1) (add64 ch (fst kw))) (snd kw) in
      let s0 := N.lxor (N.lxor (rotr64 28 a) (rotr64 34 a)) (rotr64 39 a) in
      let mj := N.lxor (N.lxor (N.land a b) (N.land a c)) (N.land b c) in
      [add64 t1 (add64 s0 mj); a; b; c; add64 d t1; e; f; g]
  | _ => st
  end.
(** One block: crate sha2 behind ed25519-dalek (Cargo.toml:29). *)
Definition compress512 (st : list N) (block : list N) : list N :=
  map (fun ab => add64 (fst ab) (snd ab)) (combine st (fold_left round512 (combine k512 (schedule512 block)) st)).

(** Padding: 128, zeros, 128-bit length in bits. Crate sha2 behind ed25519-dalek (Cargo.toml:29). *)
Definition pad512 (s : string) : string :=
  let l := N.of_nat (String.length s) in
  let z := (239 - l mod 128) mod 128 in
  (s ++ String (chr 128) (zeros (N.to_nat z)) ++ be8 (l * 8 / 18446744073709551616) ++ be8 (w64 (l * 8)))%string.
(** Hash of a byte string: crate sha2 behind ed25519-dalek (Cargo.toml:29). *)
Definition sha512 (s : string) : string :=
  let ws := words64 (words (pad512 s)) in
  String.concat "" (map be8 (fold_left compress512 (blocks (Nat.div (List.length ws) 16) ws) h0_512)).
