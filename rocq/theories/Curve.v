(** X25519 (RFC 7748), as crate x25519-dalek 1.1 (Cargo.toml:32) computes it for src/messages/helpers/encryption.rs:54-55, 138-139,
    365-366 and src/messages/helpers/receive.rs:84-85. The crate multiplies the base point with a table of multiples on the
    birationally equivalent Edwards curve; here the ladder is used for the base point too. Definitions only. *)

From Coq Require Import Ascii String ZArith NArith List Bool.
From Verif Require Import Bytes.
Local Open Scope string_scope.
Local Open Scope Z_scope.

(** ** The field: crate curve25519-dalek behind x25519-dalek (Cargo.toml:32) *)

(** Modulus: x25519-dalek (Cargo.toml:32). *)
Definition p25519 : Z := 2 ^ 255 - 19.
(** Sum: x25519-dalek (Cargo.toml:32). *)
Definition fadd (x y : Z) : Z := (x + y) mod p25519.
(** Difference: x25519-dalek (Cargo.toml:32). *)
Definition fsub (x y : Z) : Z := (x - y) mod p25519.
(** Product: x25519-dalek (Cargo.toml:32). *)
Definition fmul (x y : Z) : Z := (x * y) mod p25519.
(** Power: x25519-dalek (Cargo.toml:32). *)
Fixpoint fpow (x : Z) (e : positive) : Z :=
  match e with
  | xH => x mod p25519
  | xO e' => let y := fpow x e' in fmul y y
  | xI e' => let y := fpow x e' in fmul x (fmul y y)
  end.
(** Inverse, 0 for 0: x25519-dalek (Cargo.toml:32). *)
Definition finv (x : Z) : Z := fpow x (Z.to_pos (p25519 - 2)).

(** ** Montgomery ladder *)

(** The two points [(x2 : z2)] and [(x3 : z3)]. x25519-dalek (Cargo.toml:32). *)
Record ladder_state := { l_x2 : Z; l_z2 : Z; l_x3 : Z; l_z3 : Z }.
(** Conditional swap: x25519-dalek (Cargo.toml:32). *)
Definition cswap (b : bool) (s : ladder_state) : ladder_state :=
  if b then {| l_x2 := l_x3 s; l_z2 := l_z3 s; l_x3 := l_x2 s; l_z3 := l_z2 s |} else s.
(** Doubling of the first point and differential addition, RFC 7748 section 5: x25519-dalek (Cargo.toml:32). *)
Definition ladder_step (u : Z) (s : ladder_state) : ladder_state :=
  let a := fadd (l_x2 s) (l_z2 s) in
  let aa := fmul a a in
  let b := fsub (l_x2 s) (l_z2 s) in
  let bb := fmul b b in
  let e := fsub aa bb in
  let c := fadd (l_x3 s) (l_z3 s) in
  let d := fsub (l_x3 s) (l_z3 s) in
  let da := fmul d a in
  let cb := fmul c b in
  let plus := fadd da cb in
  let minus := fsub da cb in
  {| l_x2 := fmul aa bb; l_z2 := fmul e (fadd aa (fmul 121665 e)); l_x3 := fmul plus plus; l_z3 := fmul u (fmul minus minus) |}.
(** Bits [n - 1] to 0 of [k]: x25519-dalek (Cargo.toml:32). *)
Fixpoint ladder (u k : Z) (n : nat) (swap : bool) (s : ladder_state) : ladder_state :=
  match n with
  | O => cswap swap s
  | S t => let bit := Z.testbit k (Z.of_nat t) in ladder u k t bit (ladder_step u (cswap (xorb swap bit) s))
  end.
(** Affine result: x25519-dalek (Cargo.toml:32). *)
Definition scalar_mult (k u : Z) : Z :=
  let s := ladder u k 255 false {| l_x2 := 1; l_z2 := 0; l_x3 := u; l_z3 := 1 |} in fmul (l_x2 s) (finv (l_z2 s)).

(** ** Bytes *)

(** Little-endian number: x25519-dalek (Cargo.toml:32). *)
Fixpoint le_decode (s : string) : Z :=
  match s with
  | "" => 0
  | String c r => Z.of_N (code c) + 256 * le_decode r
  end.
(** Little-endian bytes: x25519-dalek (Cargo.toml:32). *)
Fixpoint le_encode (n : nat) (x : Z) : string :=
  match n with
  | O => ""
  | S m => String (chr (Z.to_N (x mod 256))) (le_encode m (x / 256))
  end.
(** [StaticSecret::from]: the three lowest bits and the highest are cleared, the second highest is set.
    x25519-dalek (Cargo.toml:32), called at src/messages/helpers/encryption.rs:55, 138, 365. *)
Definition clamp (s : string) : Z := let n := le_decode s in n mod 2 ^ 254 - n mod 8 + 2 ^ 254.
(** The highest bit of a coordinate is ignored. x25519-dalek (Cargo.toml:32), called at
    src/messages/helpers/encryption.rs:54, 366. *)
Definition decode_u (s : string) : Z := (le_decode s mod 2 ^ 255) mod p25519.
(** [StaticSecret::diffie_hellman], src/messages/helpers/encryption.rs:55, 366 *)
Definition x25519 (secret point : string) : string := le_encode 32 (scalar_mult (clamp secret) (decode_u point)).
(** [PublicKey::from], src/messages/helpers/encryption.rs:139 *)
Definition x25519_base (secret : string) : string := x25519 secret (le_encode 32 9).
