(** The content ciphers: XChaCha20-Poly1305 (crate chacha20poly1305 0.8, Cargo.toml:24) and AES-256-GCM (crate aes-gcm 0.9,
    Cargo.toml:25), called at src/crypto/encryptor.rs:26-50, 75-99 and src/messages/helpers/encryption.rs:80-101, 161-194.
    Definitions only.  Algorithms: RFC 8439, draft-irtf-cfrg-xchacha-03, FIPS 197, NIST SP 800-38D.

    Keys and nonces of other lengths cannot be given to the crates (types); here the functions return [None] for them. *)

From Coq Require Import Ascii String NArith List.
From Verif Require Import Bytes ChaCha Sha256.
Import ListNotations.
Local Open Scope string_scope.
Local Open Scope N_scope.

(** ** Bytes *)

(** Bytewise exclusive or: src/crypto/encryptor.rs:35, crates chacha20poly1305 and aes-gcm (Cargo.toml:24-25). *)
Fixpoint xor_bytes (a b : string) : string :=
  match a, b with
  | String x a', String y b' => String (chr (N.lxor (code x) (code y))) (xor_bytes a' b')
  | _, _ => ""
  end.
(** Little endian words of four bytes: src/crypto/encryptor.rs:33-34, crate chacha20poly1305 (Cargo.toml:24). *)
Fixpoint le_words (s : string) : list N :=
  match s with
  | String a (String b (String c (String d r))) => (code a + 256 * (code b + 256 * (code c + 256 * code d))) :: le_words r
  | _ => []
  end.
(** Little endian number of a byte string: src/crypto/encryptor.rs:35, crate chacha20poly1305 (Cargo.toml:24). *)
Fixpoint le_num (s : string) : N := match s with "" => 0 | String c r => code c + 256 * le_num r end.
(** Little endian bytes of a number: src/crypto/encryptor.rs:35, crate chacha20poly1305 (Cargo.toml:24). *)
Fixpoint le_bytes (n : nat) (x : N) : string :=
  match n with O => "" | S n' => String (chr (x mod 256)) (le_bytes n' (x / 256)) end.
(** Big endian number of a byte string: src/crypto/encryptor.rs:48, crate aes-gcm (Cargo.toml:25). *)
Fixpoint be_num (a : N) (s : string) : N := match s with "" => a | String c r => be_num (a * 256 + code c) r end.
(** Big endian bytes of a number: src/crypto/encryptor.rs:48, crate aes-gcm (Cargo.toml:25). *)
Fixpoint be_bytes (n : nat) (x : N) : string :=
  match n with O => "" | S n' => String (chr (N.shiftr x (8 * N.of_nat n') mod 256)) (be_bytes n' x) end.
(** Zero padding to a multiple of 16 bytes: src/crypto/encryptor.rs:35,48, crates chacha20poly1305 and aes-gcm
    (Cargo.toml:24-25). *)
Definition pad16 (s : string) : string := s ++ zeros (Nat.modulo (16 - Nat.modulo (String.length s) 16) 16).
(** Pieces of 16 bytes, the last one possibly shorter; at most [n]. src/crypto/encryptor.rs:35,48, crates
    chacha20poly1305 and aes-gcm (Cargo.toml:24-25). *)
Fixpoint pieces (n : nat) (s : string) : list string :=
  match n, s with
  | S n', String _ _ => take 16 s :: pieces n' (drop 16 s)
  | _, _ => []
  end.
(** Length of a byte string as a number: src/crypto/encryptor.rs:35,48 ([usize] as u64). *)
Definition len64 (s : string) : N := N.of_nat (String.length s).

(** ** XChaCha20-Poly1305 *)

(** HChaCha20: the key of the inner cipher from the key and the first 16 bytes of the nonce. src/crypto/encryptor.rs:34-35,
    crate chacha20poly1305 (Cargo.toml:24). *)
Definition hchacha (key nonce : list N) : list N :=
  let fin := Nat.iter 10 double_round ([1634760805; 857760878; 2036477234; 1797285236] ++ key ++ nonce)%list in
  (firstn 4 fin ++ skipn 12 fin)%list.
(** Block [i] of the key stream: src/crypto/encryptor.rs:34-35, crate chacha20poly1305 (Cargo.toml:24). *)
Definition xc_block (k n : string) (i : nat) : string :=
  chacha_block (hchacha (le_words k) (le_words (take 16 n))) (N.of_nat i, 0)
    (nth 4 (le_words n) 0, nth 5 (le_words n) 0).
(** The first [l] bytes of the key stream, from block 1 on. src/crypto/encryptor.rs:35, crate chacha20poly1305
    (Cargo.toml:24). *)
Definition xc_stream (k n : string) (l : nat) : string :=
  take l (String.concat "" (map (xc_block k n) (seq 1 (S (Nat.div l 64))))).
(** Poly1305: src/crypto/encryptor.rs:35, crate chacha20poly1305 (Cargo.toml:24). *)
Definition poly1305 (key msg : string) : string :=
  let r := N.land (le_num (take 16 key)) 21267647620597763993911028882763415551 in
  let s := le_num (drop 16 key) in
  let a := fold_left (fun a b => (a + le_num (b ++ String (chr 1) "")) * r mod (2 ^ 130 - 5))
             (pieces (String.length msg) msg) 0 in
  le_bytes 16 ((a + s) mod 2 ^ 128).
(** The tag of associated data and ciphertext; its key is the first half of block 0. src/crypto/encryptor.rs:34, crate
    chacha20poly1305 (Cargo.toml:24). *)
Definition xc_tag (k n a c : string) : string :=
  poly1305 (take 32 (xc_block k n 0)) (pad16 a ++ pad16 c ++ le_bytes 8 (len64 a) ++ le_bytes 8 (len64 c)).
(** Texts that can be encrypted: the block counter has 32 bits. src/crypto/encryptor.rs:35, crate chacha20poly1305
    (Cargo.toml:24). *)
Definition xc_fits (k n p : string) : bool :=
  (Nat.eqb (String.length k) 32 && Nat.eqb (String.length n) 24 && (len64 p / 64 <? 4294967295))%bool.
(** src/crypto/encryptor.rs:33-36, src/messages/helpers/encryption.rs:178-194: ciphertext followed by the tag. *)
Definition xc20p_enc (k n a p : string) : option string :=
  if xc_fits k n p then
    let c := xor_bytes p (xc_stream k n (String.length p)) in
    Some (c ++ xc_tag k n a c)%string
  else None.
(** src/crypto/encryptor.rs:82-85, src/messages/helpers/encryption.rs:80-89: the tag is checked first. *)
Definition xc20p_dec (k n a c : string) : option string :=
  if Nat.ltb (String.length c) 16 then None
  else
    let body := take (String.length c - 16)%nat c in
    let tag := drop (String.length c - 16)%nat c in
    if (xc_fits k n body && String.eqb tag (xc_tag k n a body))%bool then
      Some (xor_bytes body (xc_stream k n (String.length body)))
    else None.

(** ** AES-256 *)

(** FIPS 197, figure 7: src/crypto/encryptor.rs:47-48, crate aes-gcm (Cargo.toml:25). *)
Definition sbox : list N :=
  [99; 124; 119; 123; 242; 107; 111; 197; 48; 1; 103; 43; 254; 215; 171; 118;
   202; 130; 201; 125; 250; 89; 71; 240; 173; 212; 162; 175; 156; 164; 114; 192;
   183; 253; 147; 38; 54; 63; 247; 204; 52; 165; 229; 241; 113; 216; 49; 21;
   4; 199; 35; 195; 24; 150; 5; 154; 7; 18; 128; 226; 235; 39; 178; 117;
   9; 131; 44; 26; 27; 110; 90; 160; 82; 59; 214; 179; 41; 227; 47; 132;
   83; 209; 0; 237; 32; 252; 177; 91; 106; 203; 190; 57; 74; 76; 88; 207;
   208; 239; 170; 251; 67; 77; 51; 133; 69; 249; 2; 127; 80; 60; 159; 168;
   81; 163; 64; 143; 146; 157; 56; 245; 188; 182; 218; 33; 16; 255; 243; 210;
   205; 12; 19; 236; 95; 151; 68; 23; 196; 167; 126; 61; 100; 93; 25; 115;
   96; 129; 79; 220; 34; 42; 144; 136; 70; 238; 184; 20; 222; 94; 11; 219;
   224; 50; 58; 10; 73; 6; 36; 92; 194; 211; 172; 98; 145; 149; 228; 121;
   231; 200; 55; 109; 141; 213; 78; 169; 108; 86; 244; 234; 101; 122; 174; 8;
   186; 120; 37; 46; 28; 166; 180; 198; 232; 221; 116; 31; 75; 189; 139; 138;
   112; 62; 181; 102; 72; 3; 246; 14; 97; 53; 87; 185; 134; 193; 29; 158;
   225; 248; 152; 17; 105; 217; 142; 148; 155; 30; 135; 233; 206; 85; 40; 223;
   140; 161; 137; 13; 191; 230; 66; 104; 65; 153; 45; 15; 176; 84; 187; 22].
(** SubBytes for one byte: src/crypto/encryptor.rs:47-48, crate aes-gcm (Cargo.toml:25). *)
Definition sub_byte (x : N) : N := nth (N.to_nat x) sbox 0.
(** Multiplication by x in GF(2^8): src/crypto/encryptor.rs:47-48, crate aes-gcm (Cargo.toml:25). *)
Definition xtime (x : N) : N := if 256 <=? 2 * x then N.lxor (2 * x) 283 else 2 * x.
(** Bytes of a word, most significant first. src/crypto/encryptor.rs:47-48, crate aes-gcm (Cargo.toml:25). *)
Definition word_bytes (w : N) : list N := [w / 16777216 mod 256; w / 65536 mod 256; w / 256 mod 256; w mod 256].
(** Word of four bytes: src/crypto/encryptor.rs:47-48, crate aes-gcm (Cargo.toml:25). *)
Definition bytes_word (l : list N) : N := fold_left (fun a b => a * 256 + b) l 0.
(** SubWord: src/crypto/encryptor.rs:47-48, crate aes-gcm (Cargo.toml:25). *)
Definition sub_word (w : N) : N := bytes_word (map sub_byte (word_bytes w)).
(** Next word of the key schedule; [ws] holds the words so far, newest first. src/crypto/encryptor.rs:47-48, crate aes-gcm
    (Cargo.toml:25). *)
Definition expand_step (ws : list N) : list N :=
  let i := List.length ws in
  let t := nth 0 ws 0 in
  let t := match Nat.modulo i 8 with
           | O => N.lxor (sub_word (rotl32 8 t)) (Nat.iter (Nat.div i 8 - 1)%nat xtime 1 * 16777216)
           | 4%nat => sub_word t
           | _ => t
           end in
  N.lxor (nth 7 ws 0) t :: ws.
(** The 60 words of the key schedule: src/crypto/encryptor.rs:47-48, crate aes-gcm (Cargo.toml:25). *)
Definition expand (k : string) : list N := rev (Nat.iter 52 expand_step (rev (words k))).
(** Key of round [r]: src/crypto/encryptor.rs:47-48, crate aes-gcm (Cargo.toml:25). *)
Definition round_key (ws : list N) (r : nat) : list N :=
  flat_map word_bytes [nth (4 * r)%nat ws 0; nth (4 * r + 1)%nat ws 0; nth (4 * r + 2)%nat ws 0; nth (4 * r + 3)%nat ws 0].
(** AddRoundKey: src/crypto/encryptor.rs:47-48, crate aes-gcm (Cargo.toml:25). *)
Definition add_key (s k : list N) : list N := map (fun ab => N.lxor (fst ab) (snd ab)) (combine s k).
(** ShiftRows, the state given column by column. src/crypto/encryptor.rs:47-48, crate aes-gcm (Cargo.toml:25). *)
Definition shift_rows (s : list N) : list N :=
  map (fun i => nth i s 0) [0; 5; 10; 15; 4; 9; 14; 3; 8; 13; 2; 7; 12; 1; 6; 11]%nat.
(** MixColumns for one column: src/crypto/encryptor.rs:47-48, crate aes-gcm (Cargo.toml:25). *)
Definition mix_column (a b c d : N) : list N :=
  let m x y z w := N.lxor (N.lxor (xtime x) (N.lxor (xtime y) y)) (N.lxor z w) in
  [m a b c d; m b c d a; m c d a b; m d a b c].
(** MixColumns: src/crypto/encryptor.rs:47-48, crate aes-gcm (Cargo.toml:25). *)
Fixpoint mix_columns (s : list N) : list N :=
  match s with
  | a :: b :: c :: d :: r => (mix_column a b c d ++ mix_columns r)%list
  | _ => []
  end.
(** Round [r] of 13: src/crypto/encryptor.rs:47-48, crate aes-gcm (Cargo.toml:25). *)
Definition aes_round (ws : list N) (s : list N) (r : nat) : list N :=
  add_key (mix_columns (shift_rows (map sub_byte s))) (round_key ws r).
(** One block with the words of the key schedule: src/crypto/encryptor.rs:47-48, crate aes-gcm (Cargo.toml:25). *)
Definition aes_block (ws : list N) (b : string) : string :=
  let s := add_key (map code (list_ascii_of_string b)) (round_key ws 0) in
  let s := fold_left (aes_round ws) (seq 1 13) s in
  string_of_list_ascii (map chr (add_key (shift_rows (map sub_byte s)) (round_key ws 14))).

(** ** AES-256-GCM *)

(** One step of the multiplication in GF(2^128), for a bit of the first factor. src/crypto/encryptor.rs:48, crate aes-gcm
    (Cargo.toml:25). *)
Definition gf_step (x : N) (zv : N * N) (i : N) : N * N :=
  let '(z, v) := zv in
  (if N.testbit x i then N.lxor z v else z,
   if N.testbit v 0 then N.lxor (N.shiftr v 1) 299076299051606071403356588563077529600 else N.shiftr v 1).
(** Multiplication in GF(2^128), the most significant bit first. src/crypto/encryptor.rs:48, crate aes-gcm
    (Cargo.toml:25). *)
Definition gf_mul (x y : N) : N := fst (fold_left (gf_step x) (map N.of_nat (rev (seq 0 128))) (0, y)).
(** GHASH: src/crypto/encryptor.rs:48, crate aes-gcm (Cargo.toml:25). *)
Definition ghash (h : N) (s : string) : N :=
  fold_left (fun y b => gf_mul (N.lxor y (be_num 0 b)) h) (pieces (String.length s) s) 0.
(** Encrypted counter block [i]: src/crypto/encryptor.rs:48, crate aes-gcm (Cargo.toml:25). *)
Definition gcm_block (ws : list N) (n : string) (i : nat) : string := aes_block ws (n ++ be4 (w32 (N.of_nat i))).
(** The first [l] bytes of the key stream, from block 2 on. src/crypto/encryptor.rs:48, crate aes-gcm (Cargo.toml:25). *)
Definition gcm_stream (k n : string) (l : nat) : string :=
  let ws := expand k in take l (String.concat "" (map (gcm_block ws n) (seq 2 (S (Nat.div l 16))))).
(** The tag of associated data and ciphertext: src/crypto/encryptor.rs:48, crate aes-gcm (Cargo.toml:25). *)
Definition gcm_tag (k n a c : string) : string :=
  let ws := expand k in
  let h := be_num 0 (aes_block ws (zeros 16)) in
  xor_bytes (be_bytes 16 (ghash h (pad16 a ++ pad16 c ++ be_bytes 8 (8 * len64 a) ++ be_bytes 8 (8 * len64 c)))) (gcm_block ws n 1).
(** Lengths that are accepted; [extra] is 16 for decryption. src/crypto/encryptor.rs:48,97, crate aes-gcm (Cargo.toml:25). *)
Definition gcm_fits (extra : N) (k n a p : string) : bool :=
  (Nat.eqb (String.length k) 32 && Nat.eqb (String.length n) 12 && (len64 p <=? 2 ^ 36 + extra) && (len64 a <=? 2 ^ 36))%bool.
(** src/crypto/encryptor.rs:46-49, src/messages/helpers/encryption.rs:161-177: ciphertext followed by the tag. *)
Definition aesgcm_enc (k n a p : string) : option string :=
  if gcm_fits 0 k n a p then
    let c := xor_bytes p (gcm_stream k n (String.length p)) in
    Some (c ++ gcm_tag k n a c)%string
  else None.
(** src/crypto/encryptor.rs:95-98, src/messages/helpers/encryption.rs:91-100: the tag is checked first. *)
Definition aesgcm_dec (k n a c : string) : option string :=
  if Nat.ltb (String.length c) 16 then None
  else
    let body := take (String.length c - 16)%nat c in
    let tag := drop (String.length c - 16)%nat c in
    if (gcm_fits 16 k n a body && String.eqb tag (gcm_tag k n a body))%bool then
      Some (xor_bytes body (gcm_stream k n (String.length body)))
    else None.
