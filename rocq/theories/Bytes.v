(** Byte strings.

    Rust [String], [&str], [Vec<u8>] and [&[u8]] are all modelled by Coq [string]
    (a list of [ascii], i.e. of bytes).  A Rust [String] is in addition valid UTF-8;
    where that matters the predicate of Utf8.v is used.  Everything in this file is
    plumbing for the model; citations are to the places of /repo that need it. *)

From Coq Require Import Ascii String NArith List Bool.
Import ListNotations.
Local Open Scope string_scope.

(** Outcome of a fallible Rust function: [Result<T, crate::Error>] (src/result.rs, src/error.rs) or a panic (unwrap on
    an error, slice index out of range, [GenericArray::from_slice] length mismatch, [todo!()]). Simplification: texts
    of error messages that quote a nested error are dropped; [Error::Other], [RegexError], [TryFromError],
    [SystemTimeError], [JwmHeaderParseError], [PropertyIsNotSet] are never produced by the modelled code paths.
    src/error.rs:5-50 *)
Inductive error :=
| EPlugCryptoFailure        (* src/error.rs:7 *)
| ENoRotationData           (* src/error.rs:9 *)
| EBadDid                   (* src/error.rs:11 *)
| ENoJweRecipient           (* src/error.rs:13 *)
| EJwsParse                 (* src/error.rs:15 *)
| EJweParse                 (* src/error.rs:17 *)
| EDidResolveFailed         (* src/error.rs:21 *)
| EInvalidKeySize (s : string)  (* src/error.rs:23 *)
| EGeneric (s : string)     (* src/error.rs:27 *)
| ESerde                    (* src/error.rs:29 *)
| EUtf8Parse                (* src/error.rs:38 *)
| EEdDsa                    (* src/error.rs:41 *)
| EStringConversion         (* src/error.rs:43 *)
| EBase64Decode             (* src/error.rs:47 *)
| EAttachment (s : string). (* src/error.rs:49 *)

(** Outcome of a function: src/result.rs:7 ([Result<T, Error>] over src/error.rs:5-50), or a panic (for example
    src/messages/helpers/encryption.rs:55, src/messages/jwe.rs:116). *)
Inductive res (A : Type) :=
| Ok (a : A)
| Err (e : error)
| Panic.
Arguments Ok {A} a.
Arguments Err {A} e.
Arguments Panic {A}.

(** The [?] operator. Used for example at src/messages/message.rs:198. *)
Definition rbind {A B} (x : res A) (f : A -> res B) : res B :=
  match x with Ok a => f a | Err e => Err e | Panic => Panic end.
Notation "'let?' x ':=' e 'in' f" := (rbind e (fun x => f))
  (at level 200, x name, e at level 100, f at level 200, right associativity).

(** [ok_or] / [map_err] on an option. Used for example at src/messages/message_raw_crypto.rs:103-105,
    src/messages/helpers/encryption.rs:36-37. *)
Definition oerr {A} (o : option A) (e : error) : res A :=
  match o with Some a => Ok a | None => Err e end.

(** [unwrap] on an option/result. src/messages/jwe.rs:116,121, src/messages/out_of_band.rs:28. *)
Definition unwrap {A} (o : option A) : res A :=
  match o with Some a => Ok a | None => Panic end.

(** Option monad, used by the decoders (serde has a single error kind here). src/error.rs:29 ([SerdeError]). *)
Definition obind {A B} (x : option A) (f : A -> option B) : option B :=
  match x with Some a => f a | None => None end.
Notation "'let!' x ':=' e 'in' f" := (obind e (fun x => f))
  (at level 200, x name, e at level 100, f at level 200, right associativity).

(** [Option::unwrap_or_default] for strings. src/messages/headers/didcomm.rs:72-73,96, src/messages/message.rs:461. *)
Definition or_empty (o : option string) : string :=
  match o with Some s => s | None => "" end.

(** First [n] bytes, and the rest ([split_at], [array_ref!(x, 0, 32)], [&nonce[..12]]).
    src/messages/helpers/encryption.rs:55,365-367, src/crypto/encryptor.rs:46. *)
Fixpoint take (n : nat) (s : string) : string :=
  match n, s with
  | S n', String c r => String c (take n' r)
  | _, _ => ""
  end.
(** The rest after [take]: src/messages/message_raw_crypto.rs:53, src/messages/helpers/encryption.rs:203. *)
Fixpoint drop (n : nat) (s : string) : string :=
  match n, s with
  | S n', String _ r => drop n' r
  | _, _ => s
  end.

(** All bytes of a string satisfy a test. Used for the digit test of serde_json (Cargo.toml:21), see Value.v. *)
Fixpoint sall (f : ascii -> bool) (s : string) : bool :=
  match s with "" => true | String c r => f c && sall f r end.

(** Membership of a string in a list of strings. Field names known to a derived visitor (serde derive, Cargo.toml:20),
    see Serde.v. *)
Definition smem (k : string) (l : list string) : bool := existsb (String.eqb k) l.

(** Byte code of a character. A [u8] (src/messages/helpers/encryption.rs:374-381 works on them). *)
Definition code (c : ascii) : N := N_of_ascii c.
(** The [u8] with a given code (src/messages/mediated.rs:11: [Vec<u8>] read from numbers). *)
Definition chr (n : N) : ascii := ascii_of_N n.

(** Digits of the JSON number grammar (serde_json, Cargo.toml:21) and of the classes in
    src/messages/problem_report.rs:19. *)
Definition is_digit (c : ascii) : bool := ((48 <=? code c) && (code c <=? 57))%N.

(** Longest prefix of decimal digits, and the rest. serde_json (Cargo.toml:21). *)
Fixpoint span_digits (s : string) : string * string :=
  match s with
  | String c r => if is_digit c then let (d, r') := span_digits r in (String c d, r') else ("", s)
  | "" => ("", "")
  end.

(** Decimal printing of an unsigned integer (serde_json prints u64/usize with itoa). Fields of type u64/usize:
    src/messages/headers/didcomm.rs:25-29, src/messages/attachment.rs:24. *)
Fixpoint dec_aux (fuel : nat) (n : N) (acc : string) : string :=
  match fuel with
  | O => acc
  | S f =>
      let acc' := String (chr (48 + n mod 10)) acc in
      if (n / 10 =? 0)%N then acc' else dec_aux f (n / 10)%N acc'
  end.
(** The same with enough fuel (src/messages/headers/didcomm.rs:25-29). *)
Definition dec_of_N (n : N) : string := dec_aux (S (N.size_nat n)) n "".

(** Value of a digit string, continuing from [acc]. serde_json reading u64 (src/messages/headers/didcomm.rs:25-29). *)
Fixpoint dec_val (acc : N) (s : string) : N :=
  match s with
  | "" => acc
  | String c r => dec_val (acc * 10 + (code c - 48))%N r
  end.

(** Value of a hexadecimal digit. Crate hex (Cargo.toml:30, used at src/messages/helpers/encryption.rs:244) and the
    u-escapes of serde_json (Cargo.toml:21). *)
Definition hexval (c : ascii) : option N :=
  let n := code c in
  if ((48 <=? n) && (n <=? 57))%N then Some (n - 48)%N
  else if ((97 <=? n) && (n <=? 102))%N then Some (n - 87)%N
  else if ((65 <=? n) && (n <=? 70))%N then Some (n - 55)%N
  else None.

(** Lower-case hexadecimal digit of a number below 16. serde_json (Cargo.toml:21) writing control characters. *)
Definition hexdig (n : N) : ascii := if (n <? 10)%N then chr (48 + n) else chr (87 + n).

(** [hex::decode] (crate hex 0.4, used at src/messages/helpers/encryption.rs:244):
    both cases of digits, odd length is an error. *)
Fixpoint hex_decode (s : string) : option string :=
  match s with
  | "" => Some ""
  | String a (String b r) =>
      match hexval a, hexval b, hex_decode r with
      | Some x, Some y, Some t => Some (String (chr (x * 16 + y)) t)
      | _, _, _ => None
      end
  | _ => None
  end.

(** [hex::encode], used only to state theorems (a caller builds a [kid] this way, README/tests). The inverse of
    src/messages/helpers/encryption.rs:244. *)
Fixpoint hex_encode (s : string) : string :=
  match s with
  | "" => ""
  | String c r => String (hexdig (code c / 16)) (String (hexdig (code c mod 16)) (hex_encode r))
  end.

(** A Rust [HashMap<String, V>] is modelled by the list of its entries in its (arbitrary)
    iteration order.  [insert]: replaces the value of an existing key, otherwise adds an entry
    (std::collections::HashMap; used by Message::add_header_field, src/messages/message.rs:96,
    and Jwk::add_other_header, src/messages/headers/jwk.rs:57).
    Simplification: a new entry is placed last; the real position is unspecified.  Functions that
    rebuild a map by deserialisation therefore take an order oracle, see Serde.v. *)
Fixpoint map_insert {V} (k : string) (v : V) (m : list (string * V)) : list (string * V) :=
  match m with
  | [] => [(k, v)]
  | (k', v') :: r => if String.eqb k k' then (k, v) :: r else (k', v') :: map_insert k v r
  end.

(** [HashMap::get]. Used at src/messages/helpers/encryption.rs:63-74. *)
Fixpoint map_get {V} (k : string) (m : list (string * V)) : option V :=
  match m with
  | [] => None
  | (k', v) :: r => if String.eqb k k' then Some v else map_get k r
  end.

(** Inserting a list of entries one after the other (how serde fills a [HashMap]). Used for
    src/messages/headers/jwk.rs:39, src/messages/headers/didcomm.rs:39, src/messages/headers/decorators.rs:36. *)
Definition map_of_entries {V} (es : list (string * V)) : list (string * V) :=
  fold_left (fun m e => map_insert (fst e) (snd e) m) es [].

(** Names of the entries (src/messages/headers/didcomm.rs:39). *)
Definition keys {V} (m : list (string * V)) : list string := map fst m.

(** All results of a list of optional results, or nothing. [collect] of fallible elements as serde does for [Vec]
    (src/messages/headers/didcomm.rs:20-21). *)
Fixpoint all_some {A} (l : list (option A)) : option (list A) :=
  match l with
  | [] => Some []
  | Some a :: r => match all_some r with Some r' => Some (a :: r') | None => None end
  | None :: _ => None
  end.
