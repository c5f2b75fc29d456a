(** Numbers with fraction or exponent: how serde_json 1.0 (a dependency, Cargo.toml:21, features [std] and [raw_value], so
    without float_roundtrip and arbitrary_precision) reads them into an f64 and how it prints an f64 back.  This is what
    [serde_json::from_str] and [serde_json::to_string] do with such numbers in a body
    (src/messages/message.rs:198 and 218).

    A non-negative finite f64 is represented by its value in units of 2^-1074, the smallest positive f64; the sign is
    kept apart.  Arithmetic is IEEE 754: the exact result rounded to nearest, ties to even. *)

From Coq Require Import Ascii String ZArith List Bool.
From Verif Require Import Bytes.
Local Open Scope string_scope.
Local Open Scope Z_scope.

(** ** IEEE 754 binary64 *)

(** The value 1: serde_json (Cargo.toml:21), reading a number of a body at src/messages/message.rs:198. *)
Definition unit64 : Z := 2 ^ 1074.

(** Quotient of two integers rounded to the nearest integer, ties to even. serde_json (Cargo.toml:21), reading a
    number of a body at src/messages/message.rs:198. *)
Definition div_even (a b : Z) : Z :=
  let d := a / b in
  let r := 2 * (a mod b) in
  if r <? b then d else if b <? r then d + 1 else if Z.even d then d else d + 1.

(** Exponent of the last of 53 bits of [x] (in units, so not below 0). serde_json (Cargo.toml:21), reading a number of
    a body at src/messages/message.rs:198. *)
Definition exp64 (x : Z) : Z := Z.max 0 (Z.log2 x - 52).

(** The f64 nearest to [p / q] units, without upper bound of the exponent. serde_json (Cargo.toml:21), reading a
    number of a body at src/messages/message.rs:198. *)
Definition round64 (p q : Z) : Z :=
  let e := exp64 (p / q) in div_even p (q * 2 ^ e) * 2 ^ e.

(** Not infinite. serde_json (Cargo.toml:21), reading a number of a body at src/messages/message.rs:198. *)
Definition finite64 (x : Z) : bool := x <? 2 ^ 1024 * unit64.

(** [n as f64] for a [u64]. serde_json (Cargo.toml:21), reading a number of a body at src/messages/message.rs:198. *)
Definition of_int (n : Z) : Z := round64 (n * unit64) 1.
(** Product of two f64: serde_json (Cargo.toml:21), reading a number of a body at src/messages/message.rs:198. *)
Definition mul64 (x y : Z) : Z := round64 (x * y) unit64.
(** Quotient of two f64: serde_json (Cargo.toml:21), reading a number of a body at src/messages/message.rs:198. *)
Definition div64 (x y : Z) : Z := round64 (x * unit64) y.

(** serde_json de.rs, static [POW10]: the literals 1e0 to 1e308. serde_json (Cargo.toml:21), reading a number of a
    body at src/messages/message.rs:198. *)
Definition pow10 (k : Z) : Z := of_int (10 ^ k).

(** ** Reading (serde_json de.rs) *)

(** The loop of [f64_from_parts]. [f /= 1e308] makes every f64 that comes from a [u64] zero after two rounds, so four
    rounds suffice (lemma [scale_enough] of FloatFacts3.v). serde_json (Cargo.toml:21), reading a number of a body at
    src/messages/message.rs:198. *)
Fixpoint scale (rounds : nat) (f x : Z) : option Z :=
  if Z.abs x <=? 308 then
    if 0 <=? x then let f' := mul64 f (pow10 x) in if finite64 f' then Some f' else None
    else Some (div64 f (pow10 (- x)))
  else if f =? 0 then Some f
  else if 0 <=? x then None
  else match rounds with
       | O => Some f
       | S r => scale r (div64 f (pow10 308)) (x + 308)
       end.
(** [f64_from_parts]: serde_json (Cargo.toml:21), reading a number of a body at src/messages/message.rs:198. *)
Definition from_parts (s x : Z) : option Z := scale 4 (of_int s) x.

(** Value of a digit: serde_json (Cargo.toml:21), reading a number of a body at src/messages/message.rs:198. *)
Definition digit_val (c : ascii) : Z := Z.of_N (code c) - 48.
(** [u64::MAX]: serde_json (Cargo.toml:21), reading a number of a body at src/messages/message.rs:198. *)
Definition max_u64 : Z := 18446744073709551615.
(** [i32::MAX]: serde_json (Cargo.toml:21), reading a number of a body at src/messages/message.rs:198. *)
Definition max_i32 : Z := 2147483647.
(** [i32::MIN]: serde_json (Cargo.toml:21), reading a number of a body at src/messages/message.rs:198. *)
Definition min_i32 : Z := -2147483648.

(** Number of leading digits, and what follows them. serde_json (Cargo.toml:21), reading a number of a body at
    src/messages/message.rs:198. *)
Fixpoint skip_digits (n : Z) (s : string) : Z * string :=
  match s with
  | String c r => if is_digit c then skip_digits (n + 1) r else (n, s)
  | "" => (n, s)
  end.

(** [parse_integer] and [parse_long_integer]: digits before the point are collected as long as they fit a [u64]; of
    the remaining ones only the number counts. serde_json (Cargo.toml:21), reading a number of a body at
    src/messages/message.rs:198. *)
Fixpoint read_int (a : Z) (s : string) : Z * Z * string :=
  match s with
  | String c r =>
      if is_digit c then
        if max_u64 <? a * 10 + digit_val c then let '(n, r') := skip_digits 0 s in (a, n, r')
        else read_int (a * 10 + digit_val c) r
      else (a, 0, s)
  | "" => (a, 0, s)
  end.

(** [parse_decimal] and [parse_decimal_overflow]: digits after the point, counted by [x] downwards; digits that do not
    fit are dropped. serde_json (Cargo.toml:21), reading a number of a body at src/messages/message.rs:198. *)
Fixpoint read_frac (a x : Z) (s : string) : Z * Z * string :=
  match s with
  | String c r =>
      if is_digit c then
        if max_u64 <? a * 10 + digit_val c then (a, x, snd (skip_digits 0 s))
        else read_frac (a * 10 + digit_val c) (x - 1) r
      else (a, x, s)
  | "" => (a, x, s)
  end.

(** Digits of the exponent; [None]: more than an [i32] can hold. serde_json (Cargo.toml:21), reading a number of a
    body at src/messages/message.rs:198. *)
Fixpoint read_exp_digits (a : Z) (s : string) : option Z :=
  match s with
  | String c r =>
      if is_digit c then
        if max_i32 <? a * 10 + digit_val c then None else read_exp_digits (a * 10 + digit_val c) r
      else Some a
  | "" => Some a
  end.

(** [parse_exponent] and [parse_exponent_overflow]; [s] starts after the letter e. serde_json (Cargo.toml:21), reading
    a number of a body at src/messages/message.rs:198. *)
Definition read_exp (a x : Z) (s : string) : option Z :=
  let '(neg, d) :=
    match s with
    | String c r => if (code c =? 45)%N then (true, r) else if (code c =? 43)%N then (false, r) else (false, s)
    | "" => (false, s)
    end in
  match read_exp_digits 0 d with
  | Some n => from_parts a (if neg then Z.max min_i32 (x - n) else Z.min max_i32 (x + n))
  | None => if (negb (a =? 0) && negb neg)%bool then None else Some 0
  end.

(** After the digits: an exponent or the end. serde_json (Cargo.toml:21), reading a number of a body at
    src/messages/message.rs:198. *)
Definition read_tail (a x : Z) (s : string) : option Z :=
  match s with
  | String c r => if ((code c =? 101) || (code c =? 69))%N%bool then read_exp a x r else from_parts a x
  | "" => from_parts a x
  end.

(** [parse_any_number] on a number token, for the tokens that become an f64: sign and magnitude ([None]: out of
    range). serde_json (Cargo.toml:21), reading a number of a body at src/messages/message.rs:198. *)
Definition read64 (t : string) : option (bool * Z) :=
  let '(neg, u) := match t with String c r => if (code c =? 45)%N then (true, r) else (false, t) | "" => (false, t) end in
  let '(a, x, rest) := read_int 0 u in
  option_map (pair neg)
    match rest with
    | String c r => if (code c =? 46)%N then let '(a', x', r') := read_frac a x r in read_tail a' x' r' else read_tail a x rest
    | "" => if x =? 0 then Some (of_int a) else from_parts a x
    end.

(** ** Printing (crate ryu, [format_finite]) *)

(** Are the numbers between [lo / 4] and [hi / 4] units the ones that round to the f64? The lower gap of a power of
    two is half as wide; the ends belong to it when the last bit is 0. crate ryu, used by serde_json (Cargo.toml:21),
    writing a number of a body at src/messages/message.rs:218. *)
Definition lower4 (x : Z) : Z := let e := exp64 x in 4 * x - (if (x =? 2 ^ (52 + e)) && (0 <? e) then 1 else 2) * 2 ^ e.
(** Upper end: crate ryu, used by serde_json (Cargo.toml:21), writing a number of a body at
    src/messages/message.rs:218. *)
Definition upper4 (x : Z) : Z := 4 * x + 2 * 2 ^ exp64 x.
(** Do the ends belong to the gap? crate ryu, used by serde_json (Cargo.toml:21), writing a number of a body at
    src/messages/message.rs:218. *)
Definition closed (x : Z) : bool := Z.even (x / 2 ^ exp64 x).

(** [4 * 10^k] units as a fraction. crate ryu, used by serde_json (Cargo.toml:21), writing a number of a body at
    src/messages/message.rs:218. *)
Definition ten4 (k : Z) : Z * Z := if 0 <=? k then (4 * 10 ^ k * unit64, 1) else (4 * unit64, 10 ^ (- k)).

(** Smallest and largest integer [n] such that [n * 10^k] rounds to [x]. crate ryu, used by serde_json
    (Cargo.toml:21), writing a number of a body at src/messages/message.rs:218. *)
Definition least (x k : Z) : Z :=
  let '(p, q) := ten4 k in
  let a := lower4 x * q in if closed x then - ((- a) / p) else a / p + 1.
(** Largest integer: crate ryu, used by serde_json (Cargo.toml:21), writing a number of a body at
    src/messages/message.rs:218. *)
Definition greatest (x k : Z) : Z :=
  let '(p, q) := ten4 k in
  let a := upper4 x * q in if closed x then a / p else - ((- a) / p) - 1.

(** Search downwards for the largest power of ten of which a multiple rounds to [x]. crate ryu, used by serde_json
    (Cargo.toml:21), writing a number of a body at src/messages/message.rs:218. *)
Fixpoint search (n : nat) (x k : Z) : Z :=
  match n with
  | O => k
  | S n' => if least x k <=? greatest x k then k else search n' x (k - 1)
  end.

(** No multiple of a larger power of ten is as small as [x]. crate ryu, used by serde_json (Cargo.toml:21), writing a
    number of a body at src/messages/message.rs:218. *)
Definition first_power (x : Z) : Z := let l := Z.log2 x - 1074 in if 0 <=? l then l / 3 + 1 else - ((- l) / 4) + 1.

(** Digits and exponent of the shortest decimal number that rounds to [x]; of several the one nearest to [x], of two
    equally near the even one. (This is what Ryu computes; its arithmetic is not modelled.). crate ryu, used by
    serde_json (Cargo.toml:21), writing a number of a body at src/messages/message.rs:218. *)
Definition shortest (x : Z) : Z * Z :=
  let k := search (Z.to_nat (first_power x + 330)) x (first_power x) in
  let '(p, q) := ten4 k in
  (Z.max (least x k) (Z.min (greatest x k) (div_even (4 * x * q) p)), k).

(** Digits 0: crate ryu, used by serde_json (Cargo.toml:21), writing a number of a body at
    src/messages/message.rs:218. *)
Fixpoint zeros (n : nat) : string := match n with O => "" | S n' => String "0" (zeros n') end.
(** Exponent: crate ryu, used by serde_json (Cargo.toml:21), writing a number of a body at
    src/messages/message.rs:218. *)
Definition dec_of_Z (z : Z) : string := if z <? 0 then "-" ++ dec_of_N (Z.to_N (- z)) else dec_of_N (Z.to_N z).

(** ryu pretty/mod.rs, [format64]. crate ryu, used by serde_json (Cargo.toml:21), writing a number of a body at
    src/messages/message.rs:218. *)
Definition layout (n k : Z) : string :=
  let d := dec_of_N (Z.to_N n) in
  let len := Z.of_nat (String.length d) in
  let kk := len + k in
  if (0 <=? k) && (kk <=? 16) then d ++ zeros (Z.to_nat k) ++ ".0"
  else if (0 <? kk) && (kk <=? 16) then take (Z.to_nat kk) d ++ "." ++ drop (Z.to_nat kk) d
  else if (-5 <? kk) && (kk <=? 0) then "0." ++ zeros (Z.to_nat (- kk)) ++ d
  else if len =? 1 then d ++ "e" ++ dec_of_Z (kk - 1)
  else take 1 d ++ "." ++ drop 1 d ++ "e" ++ dec_of_Z (kk - 1).
(** A non-negative f64: crate ryu, used by serde_json (Cargo.toml:21), writing a number of a body at
    src/messages/message.rs:218. *)
Definition print64 (x : Z) : string := if x =? 0 then "0.0" else let '(n, k) := shortest x in layout n k.

(** A number token read as f64 and printed again. serde_json (Cargo.toml:21), reading a number of a body at
    src/messages/message.rs:198. Written at src/messages/message.rs:218. *)
Definition float_text (t : string) : option string :=
  option_map (fun v : bool * Z => let '(neg, x) := v in (if neg then "-" else "") ++ print64 x) (read64 t).
