(** [serde_json::Value] (the type of [Message::body], src/messages/message.rs:56) and numbers.

    A [Value] is represented by the JSON tree it serialises to: object members sorted by key without
    duplicates ([BTreeMap], because feature preserve_order is not requested, Cargo.toml:21), canonical number
    tokens, and escape flags as the printer would produce them.  [vof] is [Value]'s [Deserialize]. *)

From Coq Require Import Ascii String Arith NArith List Bool.
From Verif Require Import Bytes Json.
Import ListNotations.
Local Open Scope string_scope.

(** What deserialisation takes from its environment. - [fnorm t]: the text that the f64 parsed from number token [t]
    prints as ([None]: out of range). serde_json without float_roundtrip may be off by one ulp, so nothing like [fnorm
    t = Some t] is assumed in general. - [hord]: iteration order of the [HashMap]s built during this deserialisation
    (std's RandomState): maps the entries in insertion order to the entries in iteration order. Simplification: within
    one deserialisation call, maps with the same entries get the same order. serde_json (Cargo.toml:21); the body is
    read at src/messages/message.rs:198. *)
Record drt := {
  fnorm : string -> option string;
  hord : forall V : Type, list (string * V) -> list (string * V);
}.

(** Sign and digits of an integer token. serde_json (Cargo.toml:21); the body is read at src/messages/message.rs:198.
    *)
Definition tok_int (t : string) : option (bool * string) :=
  match t with
  | "" => None
  | String c r =>
      if (code c =? 45)%N then if sall is_digit r then Some (true, r) else None
      else if sall is_digit t then Some (false, t) else None
  end.

(** [u64::MAX]: serde_json (Cargo.toml:21); the body is read at src/messages/message.rs:198. *)
Definition u64_max : N := 18446744073709551615%N.
(** Absolute value of [i64::MIN]: serde_json (Cargo.toml:21); the body is read at src/messages/message.rs:198. *)
Definition i64_min_abs : N := 9223372036854775808%N.

(** Number token -> canonical token of the [serde_json::Number] it is parsed to: u64, negative i64, otherwise f64
    (serde_json de.rs parse_integer/parse_number). serde_json (Cargo.toml:21); the body is read at
    src/messages/message.rs:198. *)
Definition vnum (R : drt) (t : string) : option string :=
  match tok_int t with
  | Some (false, d) => if (dec_val 0 d <=? u64_max)%N then Some t else fnorm R t
  | Some (true, d) =>
      let m := dec_val 0 d in
      if (m =? 0)%N then fnorm R t
      else if (m <=? i64_min_abs)%N then Some t else fnorm R t
  | None => fnorm R t
  end.

(** [BTreeMap::insert] on the sorted list of entries; Rust compares [String]s bytewise. serde_json (Cargo.toml:21);
    the body is read at src/messages/message.rs:198. *)
Fixpoint bt_insert {V} (k : string) (v : V) (l : list (string * V)) : list (string * V) :=
  match l with
  | [] => [(k, v)]
  | (k', v') :: r =>
      match String.compare k k' with
      | Lt => (k, v) :: l
      | Eq => (k, v) :: r
      | Gt => (k', v') :: bt_insert k v r
      end
  end.
(** All members of an object: serde_json (Cargo.toml:21); the body is read at src/messages/message.rs:198. *)
Definition bt_of_entries {V} (es : list (string * V)) : list (string * V) :=
  fold_left (fun m e => bt_insert (fst e) (snd e) m) es [].

(** Conversion of an optional value under a key. serde_json (Cargo.toml:21); the body is read at
    src/messages/message.rs:198. *)
Definition okv {A} (k : string) (o : option A) : option (string * A) :=
  match o with Some v => Some (k, v) | None => None end.

(** serde_json's recursion limit: [remaining_depth] starts at 128 and must not reach 0 when a container is entered, so
    127 nested containers are accepted. serde_json (Cargo.toml:21); the body is read at src/messages/message.rs:198.
    *)
Definition max_depth : nat := 127.

(** The member name serde_json reserves for [RawValue] (raw.rs TOKEN). [Value]'s visitor compares the first name of
    every object with it, because feature raw_value is requested (Cargo.toml:21). *)
Definition raw_token : string := "$serde_json::private::RawValue".

(** [ValueVisitor::visit_map] of serde_json (Cargo.toml:21): an object that does not start with [raw_token] is an
    ordinary one ([None]); otherwise the value must be a string, and nothing may follow ([end_map] refuses a comma).
    The body is read at src/messages/message.rs:198. *)
Definition raw_member (l : list (string * json)) : option (option string) :=
  match l with
  | (k, v) :: r =>
      if String.eqb k raw_token then Some (match v, r with JStr _ s, [] => Some s | _, _ => None end) else None
  | [] => None
  end.

(** Length of the longest string value: how often a text can be contained in a text. Not a notion of serde_json; fuel for
    [vof_n], whose recursion is that of [from_str] in [ValueVisitor::visit_map] (Cargo.toml:21). *)
Fixpoint longest (j : json) : nat :=
  match j with
  | JStr _ s => String.length s
  | JArr l => fold_right Nat.max 0 (map longest l)
  | JObj l => fold_right Nat.max 0 (map (fun kv => longest (snd kv)) l)
  | _ => 0
  end.

(** [Value]'s [Deserialize] without the recursion limit, for at most [n] texts inside each other. An object that stands for
    a raw value is replaced by what the contained text is read as, by a new [from_str] with its own recursion limit.
    serde_json (Cargo.toml:21); the body is read at src/messages/message.rs:198. *)
Fixpoint vof_n (n : nat) (R : drt) {struct n} : json -> option json :=
  fix go (j : json) : option json :=
  match j with
  | JNull => Some JNull
  | JBool b => Some (JBool b)
  | JNum t => option_map JNum (vnum R t)
  | JStr _ s => Some (JStr (needs_escape s) s)
  | JArr l => option_map JArr (all_some (map go l))
  | JObj l =>
      match raw_member l with
      | None =>
          option_map (fun es => JObj (bt_of_entries es))
            (all_some (map (fun kv => okv (fst kv) (go (snd kv))) l))
      | Some None => None
      | Some (Some s) =>
          match n, parse s with
          | S n', Some j' => if (depth j' <=? max_depth)%nat then vof_n n' R j' else None
          | _, _ => None
          end
      end
  end.

(** [Value]'s [Deserialize] without the recursion limit; the fuel always suffices ([vof_eq] in ValueFacts.v).
    serde_json (Cargo.toml:21); the body is read at src/messages/message.rs:198. *)
Definition vof (R : drt) (j : json) : option json := vof_n (longest j) R j.

(** [Value]'s [Deserialize] with at most [d] more levels of nesting allowed. serde_json (Cargo.toml:21); the body is
    read at src/messages/message.rs:198. *)
Definition value_of (R : drt) (d : nat) (j : json) : option json :=
  if (depth j <=? d)%nat then vof R j else None.

(** Numbers inside a tree are in range. serde_json (Cargo.toml:21); the body is read at src/messages/message.rs:198.
    *)
Fixpoint nums_ok (R : drt) (j : json) : bool :=
  match j with
  | JNum t => match vnum R t with Some _ => true | None => false end
  | JArr l => forallb (nums_ok R) l
  | JObj l => forallb (fun kv => nums_ok R (snd kv)) l
  | _ => true
  end.

(** A member value can be buffered (serde's [Content], used for flattened fields): the recursion limit and the number
    range apply. Flattened fields: src/messages/message.rs:42-47, src/messages/jwe.rs:45-47,
    src/messages/jws.rs:80-82. *)
Definition buf_ok (R : drt) (d : nat) (j : json) : bool := (depth j <=? d)%nat && nums_ok R j.
