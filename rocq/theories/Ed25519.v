(** Ed25519 (RFC 8032), as crate ed25519-dalek 1.0 (Cargo.toml:29) computes it for src/crypto/signer.rs:30-37, 69-76. The crate
    multiplies points with tables of multiples and signed digits; here they are doubled and added. Definitions only. *)

From Coq Require Import Ascii String ZArith NArith List Bool.
From Verif Require Import Bytes Sha512 Curve.
Local Open Scope string_scope.
Local Open Scope Z_scope.

(** ** Points: crate curve25519-dalek behind ed25519-dalek (Cargo.toml:29) *)

(** Order of the base point: ed25519-dalek (Cargo.toml:29). *)
Definition l25519 : Z := 2 ^ 252 + 27742317777372353535851937790883648493.
(** Coefficient of the curve [- x^2 + y^2 = 1 + d x^2 y^2], -121665/121666: ed25519-dalek (Cargo.toml:29). *)
Definition edwards_d : Z := 37095705934669439343138083508754565189542113879843219016388785533085940283555.
(** A square root of -1: ed25519-dalek (Cargo.toml:29). *)
Definition sqrt_m1 : Z := 19681161376707505956807079304988542015446066515923890162744021073123829784752.
(** The point [(x/z, y/z)] with [t = x y / z]: ed25519-dalek (Cargo.toml:29). *)
Record ext := { e_x : Z; e_y : Z; e_z : Z; e_t : Z }.
(** Neutral point: ed25519-dalek (Cargo.toml:29). *)
Definition ext_zero : ext := {| e_x := 0; e_y := 1; e_z := 1; e_t := 0 |}.
(** Base point: ed25519-dalek (Cargo.toml:29). *)
Definition ext_base : ext :=
  {| e_x := 15112221349535400772501151409588531511454012693041857206046113283949847762202;
     e_y := 46316835694926478169428394003475163141307993866256225615783033603165251855960;
     e_z := 1;
     e_t := fmul 15112221349535400772501151409588531511454012693041857206046113283949847762202
                 46316835694926478169428394003475163141307993866256225615783033603165251855960 |}.
(** Addition, RFC 8032 section 5.1.4: ed25519-dalek (Cargo.toml:29). *)
Definition ext_add (p q : ext) : ext :=
  let a := fmul (fsub (e_y p) (e_x p)) (fsub (e_y q) (e_x q)) in
  let b := fmul (fadd (e_y p) (e_x p)) (fadd (e_y q) (e_x q)) in
  let c := fmul (fmul (e_t p) (fadd edwards_d edwards_d)) (e_t q) in
  let d := fmul (fadd (e_z p) (e_z p)) (e_z q) in
  let e := fsub b a in let f := fsub d c in let g := fadd d c in let h := fadd b a in
  {| e_x := fmul e f; e_y := fmul g h; e_z := fmul f g; e_t := fmul e h |}.
(** Negation: ed25519-dalek (Cargo.toml:29). *)
Definition ext_neg (p : ext) : ext := {| e_x := fsub 0 (e_x p); e_y := e_y p; e_z := e_z p; e_t := fsub 0 (e_t p) |}.
(** Multiples by a positive number: ed25519-dalek (Cargo.toml:29). *)
Fixpoint ext_mul_pos (k : positive) (p : ext) : ext :=
  match k with
  | xH => p
  | xO k' => let q := ext_mul_pos k' p in ext_add q q
  | xI k' => let q := ext_mul_pos k' p in ext_add (ext_add q q) p
  end.
(** Multiples: ed25519-dalek (Cargo.toml:29). *)
Definition ext_mul (k : Z) (p : ext) : ext :=
  match k with
  | Zpos k' => ext_mul_pos k' p
  | _ => ext_zero
  end.

(** ** Bytes of points *)

(** [CompressedEdwardsY]: the second coordinate, the parity of the first one in the highest bit. ed25519-dalek (Cargo.toml:29). *)
Definition ed_compress (p : ext) : string :=
  let zi := finv (e_z p) in
  let x := fmul (e_x p) zi in let y := fmul (e_y p) zi in
  le_encode 32 (y + 2 ^ 255 * (x mod 2)).
(** [FieldElement::sqrt_ratio_i]: whether [u/v] is a square, and its even root. ed25519-dalek (Cargo.toml:29). *)
Definition sqrt_ratio (u v : Z) : bool * Z :=
  let v3 := fmul (fmul v v) v in
  let v7 := fmul (fmul v3 v3) v in
  let r := fmul (fmul u v3) (fpow (fmul u v7) (Z.to_pos ((p25519 - 5) / 8))) in
  let check := fmul v (fmul r r) in
  let correct := check =? u mod p25519 in
  let flipped := check =? fsub 0 u in
  let flipped_i := check =? fmul (fsub 0 u) sqrt_m1 in
  let r' := if flipped || flipped_i then fmul sqrt_m1 r else r in
  (correct || flipped, if Z.odd r' then fsub 0 r' else r').
(** [CompressedEdwardsY::decompress]: the second coordinate may exceed the modulus, and a sign of 0 is ignored.
    ed25519-dalek (Cargo.toml:29). *)
Definition ed_decompress (s : string) : option ext :=
  let n := le_decode s in
  let y := (n mod 2 ^ 255) mod p25519 in
  let yy := fmul y y in
  let (ok, r) := sqrt_ratio (fsub yy 1) (fadd (fmul yy edwards_d) 1) in
  if ok then
    let x := if Z.testbit n 255 then fsub 0 r else r in
    Some {| e_x := x; e_y := y; e_z := 1; e_t := fmul x y |}
  else None.

(** ** Keys and signatures *)

(** [Scalar::from_hash]: ed25519-dalek (Cargo.toml:29). *)
Definition ed_scalar (h : string) : Z := le_decode h mod l25519.
(** [ExpandedSecretKey::from], the scalar: ed25519-dalek (Cargo.toml:29). *)
Definition ed_secret (seed : string) : Z := clamp (take 32 (sha512 seed)).
(** [ExpandedSecretKey::from], the nonce: ed25519-dalek (Cargo.toml:29). *)
Definition ed_prefix (seed : string) : string := drop 32 (sha512 seed).
(** [PublicKey::from] a secret key: ed25519-dalek (Cargo.toml:29). *)
Definition ed_public (seed : string) : string := ed_compress (ext_mul (ed_secret seed) ext_base).
(** [Keypair::from_bytes] and [Keypair::sign], src/crypto/signer.rs:33-35: 32 bytes of secret and 32 of a public key that has to be
    the text of a point, but need not be the one of the secret. *)
Definition ed_sign (key msg : string) : option string :=
  if Nat.eqb (String.length key) 64 then
    let seed := take 32 key in let pub := drop 32 key in
    match ed_decompress pub with
    | Some _ =>
        let r := ed_scalar (sha512 (ed_prefix seed ++ msg)) in
        let big_r := ed_compress (ext_mul r ext_base) in
        let k := ed_scalar (sha512 (big_r ++ pub ++ msg)) in
        Some (big_r ++ le_encode 32 ((k * ed_secret seed + r) mod l25519))
    | None => None
    end
  else None.
(** [PublicKey::from_bytes], [Signature::try_from] and [PublicKey::verify], src/crypto/signer.rs:72-74. The three highest bits of the
    signature have to be 0; a number of the order or above is refused. *)
Definition ed_verify (key msg sg : string) : option bool :=
  if Nat.eqb (String.length key) 32 then
    match ed_decompress key with
    | Some a =>
        if Nat.eqb (String.length sg) 64 then
          let big_r := take 32 sg in let s := le_decode (drop 32 sg) in
          if s <? 2 ^ 253 then
            Some (if s <? l25519 then
                    let k := ed_scalar (sha512 (big_r ++ key ++ msg)) in
                    String.eqb (ed_compress (ext_add (ext_mul k (ext_neg a)) (ext_mul s ext_base))) big_r
                  else false)
          else None
        else None
    | None => None
    end
  else None.
