(** Numbers with fraction or exponent: what the tokens of RFC 8259 section 6 stand for, and IEEE 754 binary64.  Nothing in
    this file is used by the model. *)

From Coq Require Import Ascii String ZArith List Bool Sorted.
From Verif Require Import Json Spec SpecText SpecJson.
Local Open Scope string_scope.
Local Open Scope Z_scope.

(** ** Number tokens *)

Definition digits_value (s : string) : Z :=
  fold_left (fun n c => n * 10 + (Z.of_N (N_of_ascii c) - 48)) (list_ascii_of_string s) 0.
Definition size (s : string) : Z := Z.of_nat (String.length s).

Inductive fraction : string -> string -> Prop :=
| fr_none : fraction "" ""
| fr_some : forall d, digits d -> fraction ("." ++ d) d.
Inductive exponent : string -> Z -> Prop :=
| ex_none : exponent "" 0
| ex_plain : forall e d, e = "e" \/ e = "E" -> digits d -> exponent (e ++ d) (digits_value d)
| ex_plus : forall e d, e = "e" \/ e = "E" -> digits d -> exponent (e ++ "+" ++ d) (digits_value d)
| ex_minus : forall e d, e = "e" \/ e = "E" -> digits d -> exponent (e ++ "-" ++ d) (- digits_value d).
(** The token [t] stands for [s * 10^x], negated if [neg]. *)
Inductive decimal : string -> bool -> Z -> Z -> Prop :=
| dc_intro : forall (neg : bool) i f fd e n, int_part i -> fraction f fd -> exponent e n ->
    decimal ((if neg then "-" else "") ++ i ++ f ++ e) neg (digits_value (i ++ fd)) (n - size fd).

(** ** IEEE 754 binary64 *)

(** Non-negative values in units of 2^-1074: 53 bits and an exponent. *)
Definition binary64 (x : Z) : Prop := exists m e, 0 <= m < 2 ^ 53 /\ 0 <= e /\ x = m * 2 ^ e.
(** The last of the 53 bits is 0. *)
Definition even_last (x : Z) : Prop := exists m e, 0 <= e /\ 2 * m < 2 ^ 53 /\ (e = 0 \/ 2 ^ 52 <= 2 * m) /\ x = 2 * m * 2 ^ e.
(** [x] is the value nearest to [p / q]; of two equally near ones the one whose last bit is 0. *)
Definition nearest_even (p q x : Z) : Prop :=
  binary64 x /\ (forall y, binary64 y -> Z.abs (x * q - p) <= Z.abs (y * q - p)) /\
  (forall y, binary64 y -> y <> x -> Z.abs (y * q - p) = Z.abs (x * q - p) -> even_last x).
(** [x] is [s * 10^k] rounded. *)
Definition decimal_rounds_to (s k x : Z) : Prop :=
  (0 <= k -> nearest_even (s * 10 ^ k * 2 ^ 1074) 1 x) /\ (k < 0 -> nearest_even (s * 2 ^ 1074) (10 ^ (- k)) x).

(** [s * 10^k] is at least as near to [x] as [s' * 10^k]. *)
Definition nearer (k x s s' : Z) : Prop :=
  (0 <= k -> Z.abs (s * 10 ^ k * 2 ^ 1074 - x) <= Z.abs (s' * 10 ^ k * 2 ^ 1074 - x)) /\
  (k < 0 -> Z.abs (s * 2 ^ 1074 - x * 10 ^ (- k)) <= Z.abs (s' * 2 ^ 1074 - x * 10 ^ (- k))).

(** ** Numbers that are kept *)

(** Equal numbers. *)
Definition same_value (s x s' x' : Z) : Prop := (x' <= x -> s * 10 ^ (x - x') = s') /\ (x <= x' -> s = s' * 10 ^ (x' - x)).
(** Up to 15 digits and at most 22 places after the point; not between 10^15 and 10^16, and below 10^23. *)
Definition modest (s x : Z) : Prop :=
  s < 10 ^ 15 /\ -22 <= x <= 22 /\ (0 <= x -> s * 10 ^ x < 10 ^ 15 \/ 10 ^ 16 <= s * 10 ^ x < 10 ^ 23).
Definition modest_token (t : string) : Prop := size t < 2000000000 /\ exists neg s x, decimal t neg s x /\ modest s x.
(** Every number of the document is a 64-bit integer or such a number. *)
Inductive modest_numbers : json -> Prop :=
| mn_null : modest_numbers JNull
| mn_bool : forall b, modest_numbers (JBool b)
| mn_int : forall t, int64_token t -> modest_numbers (JNum t)
| mn_num : forall t, modest_token t -> modest_numbers (JNum t)
| mn_str : forall e s, modest_numbers (JStr e s)
| mn_arr : forall l, (forall x, In x l -> modest_numbers x) -> modest_numbers (JArr l)
| mn_obj : forall l, (forall kv, In kv l -> modest_numbers (snd kv)) -> modest_numbers (JObj l).

(** Two documents with the same content: numbers denote the same, of several members with the same name the last counts, names
    are sorted in the second. *)
Inductive same_number (t t' : string) : Prop :=
| sn_int : int64_token t -> t' = t -> same_number t t'
| sn_num : forall neg s x s' x', decimal t neg s x -> decimal t' neg s' x' -> same_value s x s' x' -> same_number t t'.
Inductive same_content : json -> json -> Prop :=
| sc_null : same_content JNull JNull
| sc_bool : forall b, same_content (JBool b) (JBool b)
| sc_num : forall t t', same_number t t' -> same_content (JNum t) (JNum t')
| sc_str : forall e e' s, same_content (JStr e s) (JStr e' s)
| sc_arr : forall l l', Forall2 same_content l l' -> same_content (JArr l) (JArr l')
| sc_obj : forall es es', StronglySorted str_lt (map fst es') ->
    (forall k v, In (k, v) es' -> exists j, last_binding es k j /\ same_content j v) ->
    (forall k, In k (map fst es) -> In k (map fst es')) -> same_content (JObj es) (JObj es').

(** ** Every number *)

(** Digits are collected as long as they fit 64 bits: after [a], those of [p] still fit, the first one of [q] does not. *)
Definition longest (a p q : string) : Prop :=
  digits_value (a ++ p) < 2 ^ 64 /\ (forall c r, q = String c r -> 2 ^ 64 <= digits_value (a ++ p ++ String c "")).
(** Of the digits [i] before the point and [d] after it these count: [s * 10^x].  Digits before the point that do not fit are
    replaced by zeros, those after it are dropped. *)
Inductive collected : string -> string -> Z -> Z -> Prop :=
| col : forall i1 i2 d1 d2, longest "" i1 i2 -> longest i1 d1 d2 -> collected (i1 ++ i2) (d1 ++ d2) (digits_value (i1 ++ d1)) (size i2 - size d1).
(** [a * 10^x] computed with rounded powers of ten; nothing if the result is too large. *)
Inductive scaled : Z -> Z -> option Z -> Prop :=
| sc_times : forall a x b v, 0 <= x <= 308 -> nearest_even (10 ^ x * 2 ^ 1074) 1 b -> nearest_even (a * b) (2 ^ 1074) v -> v < 2 ^ 2098 -> scaled a x (Some v)
| sc_over : forall a x b v, 0 <= x <= 308 -> nearest_even (10 ^ x * 2 ^ 1074) 1 b -> nearest_even (a * b) (2 ^ 1074) v -> 2 ^ 2098 <= v -> scaled a x None
| sc_divided : forall a x b v, -308 <= x < 0 -> nearest_even (10 ^ (- x) * 2 ^ 1074) 1 b -> nearest_even (a * 2 ^ 1074) b v -> scaled a x (Some v)
| sc_zero : forall x, 308 < Z.abs x -> scaled 0 x (Some 0)
| sc_large : forall a x, 0 < a -> 308 < x -> scaled a x None
| sc_far : forall a x b a' r, 0 < a -> x < -308 -> nearest_even (10 ^ 308 * 2 ^ 1074) 1 b -> nearest_even (a * 2 ^ 1074) b a' ->
    scaled a' (x + 308) r -> scaled a x r.
