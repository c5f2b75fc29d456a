(** JSON text: the printer and the parser of serde_json 1.0 (Cargo.toml:21, features std and raw_value).

    Every [serde_json::to_string] of the crate (src/messages/message.rs:218,350,361,395,
    src/messages/message_raw_crypto.rs:45,50,82,107,144,145,163,191,222, src/messages/helpers/receive.rs:121,178,
    ...) goes through [print]; every [from_str]/[from_slice] (src/messages/message.rs:198,433,549,553,585,603,
    src/messages/message_raw_crypto.rs:102,119,170,205, src/messages/helpers/receive.rs:32,39,58,138,149, ...)
    goes through [parse]/[parse_slice].

    Simplifications:
    - serde_json is a streaming parser driven by the target type; here the text is first parsed into a
      syntax tree that keeps everything a visitor can observe (order of members, duplicate members, number
      tokens, whether a string contained an escape), then the typed decoders of Serde.v read the tree.
      All failures are the single error [SerdeError], so the order in which they are detected is not visible.
    - a lone surrogate escape makes the whole parse fail even inside a member that the target type ignores;
    - [from_slice] requires the whole input to be UTF-8 (serde_json does not check ignored strings). *)

From Coq Require Import Ascii String NArith List Bool.
From Verif Require Import Bytes Utf8.
Import ListNotations.
Local Open Scope string_scope.

(** Syntax tree. [JNum] keeps the token; [JStr] remembers whether the text contained an escape (this decides whether
    serde can hand out a borrowed string). serde_json (Cargo.toml:21), called at src/messages/message.rs:198,433. *)
Inductive json :=
| JNull
| JBool (b : bool)
| JNum (tok : string)
| JStr (esc : bool) (s : string)
| JArr (l : list json)
| JObj (l : list (string * json)).

(** ** Printer (serde_json CompactFormatter) *)

(** Escape table of serde_json's [format_escaped_str]: double quote, backslash and bytes below 32. serde_json
    (Cargo.toml:21), called at src/messages/message.rs:218,350. *)
Definition esc_char (c : ascii) : string :=
  let n := code c in
  if (n =? 34)%N then String "\" (String c "")
  else if (n =? 92)%N then "\\"
  else if (n =? 8)%N then "\b"
  else if (n =? 9)%N then "\t"
  else if (n =? 10)%N then "\n"
  else if (n =? 12)%N then "\f"
  else if (n =? 13)%N then "\r"
  else if (n <? 32)%N then "\u00" ++ String (hexdig (n / 16)) (String (hexdig (n mod 16)) "")
  else String c "".

(** Characters that are escaped: serde_json (Cargo.toml:21), called at src/messages/message.rs:218,350. *)
Definition esc_needed (c : ascii) : bool :=
  ((code c =? 34) || (code c =? 92) || (code c <? 32))%N.

(** All characters: serde_json (Cargo.toml:21), called at src/messages/message.rs:218,350. *)
Fixpoint escape (s : string) : string :=
  match s with
  | "" => ""
  | String c r => esc_char c ++ escape r
  end.

(** Does printing [s] produce an escape? serde_json (Cargo.toml:21), called at src/messages/message.rs:218,350. *)
Fixpoint needs_escape (s : string) : bool :=
  match s with
  | "" => false
  | String c r => esc_needed c || needs_escape r
  end.

(** The double quote: serde_json (Cargo.toml:21), called at src/messages/message.rs:218,350. *)
Definition dquote : ascii := chr 34.
(** A JSON string: serde_json (Cargo.toml:21), called at src/messages/message.rs:218,350. *)
Definition quote (s : string) : string := String dquote (escape s ++ String dquote "").

(** Comma separated concatenation. serde_json (Cargo.toml:21), called at src/messages/message.rs:218,350. *)
Fixpoint commas (l : list string) : string :=
  match l with
  | [] => ""
  | [x] => x
  | x :: r => x ++ String "," (commas r)
  end.

(** [serde_json::to_string], compact: serde_json (Cargo.toml:21), called at src/messages/message.rs:218,350. *)
Fixpoint print (j : json) : string :=
  match j with
  | JNull => "null"
  | JBool true => "true"
  | JBool false => "false"
  | JNum tok => tok
  | JStr _ s => quote s
  | JArr l => String "[" (commas (map print l) ++ String "]" "")
  | JObj l =>
      String "{" (commas (map (fun kv => quote (fst kv) ++ String ":" (print (snd kv))) l) ++ String "}" "")
  end.

(** ** Parser *)

(** White space: serde_json (Cargo.toml:21), called at src/messages/message.rs:198,433. *)
Definition is_ws (c : ascii) : bool :=
  ((code c =? 32) || (code c =? 10) || (code c =? 9) || (code c =? 13))%N.

(** [parse_whitespace]: serde_json (Cargo.toml:21), called at src/messages/message.rs:198,433. *)
Fixpoint skip_ws (s : string) : string :=
  match s with
  | String c r => if is_ws c then skip_ws r else s
  | "" => ""
  end.

(** [strip p s]: [s] without the prefix [p]. serde_json (Cargo.toml:21), called at src/messages/message.rs:198,433. *)
Fixpoint strip (p s : string) : option string :=
  match p, s with
  | "", _ => Some s
  | String a p', String b s' => if Ascii.eqb a b then strip p' s' else None
  | _, _ => None
  end.

(** Number token: sign, integer part without leading zeros, optional fraction, optional exponent. serde_json
    (Cargo.toml:21), called at src/messages/message.rs:198,433. *)
Definition lex_int (s : string) : option (string * string) :=
  match s with
  | String c r =>
      if (code c =? 48)%N then Some (String c "", r)
      else if is_digit c then Some (span_digits s)
      else None
  | "" => None
  end.

(** Fraction: serde_json (Cargo.toml:21), called at src/messages/message.rs:198,433. *)
Definition lex_frac (s : string) : option (string * string) :=
  match s with
  | String c r =>
      if (code c =? 46)%N then
        match span_digits r with
        | ("", _) => None
        | (d, r') => Some (String c d, r')
        end
      else Some ("", s)
  | "" => Some ("", "")
  end.

(** Exponent: serde_json (Cargo.toml:21), called at src/messages/message.rs:198,433. *)
Definition lex_exp (s : string) : option (string * string) :=
  match s with
  | String c r =>
      if ((code c =? 101) || (code c =? 69))%N then
        let (sg, r1) :=
          match r with
          | String p r' => if ((code p =? 43) || (code p =? 45))%N then (String p "", r') else ("", r)
          | "" => ("", "")
          end in
        match span_digits r1 with
        | ("", _) => None
        | (d, r') => Some (String c (sg ++ d), r')
        end
      else Some ("", s)
  | "" => Some ("", "")
  end.

(** The whole number token: serde_json (Cargo.toml:21), called at src/messages/message.rs:198,433. *)
Definition lex_num (s : string) : option (string * string) :=
  let (sg, s1) :=
    match s with
    | String c r => if (code c =? 45)%N then (String c "", r) else ("", s)
    | "" => ("", "")
    end in
  match lex_int s1 with
  | None => None
  | Some (i, s2) =>
      match lex_frac s2 with
      | None => None
      | Some (f, s3) =>
          match lex_exp s3 with
          | None => None
          | Some (e, s4) => Some (sg ++ i ++ f ++ e, s4)
          end
      end
  end.

(** Four hexadecimal digits. serde_json (Cargo.toml:21), called at src/messages/message.rs:198,433. *)
Definition hex4 (a b c d : ascii) : option N :=
  match hexval a, hexval b, hexval c, hexval d with
  | Some x, Some y, Some z, Some t => Some (((x * 16 + y) * 16 + z) * 16 + t)%N
  | _, _, _, _ => None
  end.

(** First half of a surrogate pair: serde_json (Cargo.toml:21), called at src/messages/message.rs:198,433. *)
Definition is_high_surr (n : N) : bool := ((55296 <=? n) && (n <=? 56319))%N.
(** Second half of a surrogate pair: serde_json (Cargo.toml:21), called at src/messages/message.rs:198,433. *)
Definition is_low_surr (n : N) : bool := ((56320 <=? n) && (n <=? 57343))%N.

(** Code point of a surrogate pair. serde_json (Cargo.toml:21), called at src/messages/message.rs:198,433. *)
Definition surr_pair (h l : N) : N := ((h - 55296) * 1024 + (l - 56320) + 65536)%N.

(** Single character escapes. serde_json (Cargo.toml:21), called at src/messages/message.rs:198,433. *)
Definition simple_escape (c : ascii) : option ascii :=
  let n := code c in
  if (n =? 34)%N then Some c
  else if (n =? 92)%N then Some c
  else if (n =? 47)%N then Some c
  else if (n =? 98)%N then Some (chr 8)
  else if (n =? 102)%N then Some (chr 12)
  else if (n =? 110)%N then Some (chr 10)
  else if (n =? 114)%N then Some (chr 13)
  else if (n =? 116)%N then Some (chr 9)
  else None.

(** Prepend decoded bytes to the result of the rest of a string. serde_json (Cargo.toml:21), called at
    src/messages/message.rs:198,433. *)
Definition push (b : bool) (p : string) (x : option (bool * string * string)) : option (bool * string * string) :=
  match x with
  | Some (e, s, r) => Some (b || e, p ++ s, r)
  | None => None
  end.

(** Contents of a JSON string up to the closing quote: (had an escape, decoded bytes, rest). serde_json
    (Cargo.toml:21), called at src/messages/message.rs:198,433. *)
Fixpoint pstr (s : string) : option (bool * string * string) :=
  match s with
  | "" => None
  | String c r =>
      if (code c =? 34)%N then Some (false, "", r)
      else if (code c =? 92)%N then
        match r with
        | String e r1 =>
            if (code e =? 117)%N then
              match r1 with
              | String h1 (String h2 (String h3 (String h4 r2))) =>
                  match hex4 h1 h2 h3 h4 with
                  | None => None
                  | Some n =>
                      if is_low_surr n then None
                      else if is_high_surr n then
                        match r2 with
                        | String b (String u (String k1 (String k2 (String k3 (String k4 r3))))) =>
                            if ((code b =? 92) && (code u =? 117))%N then
                              match hex4 k1 k2 k3 k4 with
                              | Some n2 =>
                                  if is_low_surr n2
                                  then push true (utf8_encode (surr_pair n n2)) (pstr r3)
                                  else None
                              | None => None
                              end
                            else None
                        | _ => None
                        end
                      else push true (utf8_encode n) (pstr r2)
                  end
              | _ => None
              end
            else
              match simple_escape e with
              | Some c' => push true (String c' "") (pstr r1)
              | None => None
              end
        | "" => None
        end
      else if (code c <? 32)%N then None
      else push false (String c "") (pstr r)
  end.

(** Value / elements up to the closing bracket / members up to the closing brace. The first argument bounds the
    recursion; [parse] supplies enough (proved in JsonFacts.v). serde_json (Cargo.toml:21), called at
    src/messages/message.rs:198,433. *)
Fixpoint pval (n : nat) (s : string) {struct n} : option (json * string) :=
  match n with
  | O => None
  | S n' =>
      match skip_ws s with
      | "" => None
      | String c r =>
          if (code c =? 110)%N then match strip "ull" r with Some r' => Some (JNull, r') | None => None end
          else if (code c =? 116)%N then match strip "rue" r with Some r' => Some (JBool true, r') | None => None end
          else if (code c =? 102)%N then match strip "alse" r with Some r' => Some (JBool false, r') | None => None end
          else if (code c =? 34)%N then
            match pstr r with Some (e, t, r') => Some (JStr e t, r') | None => None end
          else if (code c =? 91)%N then
            match skip_ws r with
            | "" => None
            | String d r' =>
                if (code d =? 93)%N then Some (JArr [], r')
                else match pelems n' (String d r') with Some (l, r2) => Some (JArr l, r2) | None => None end
            end
          else if (code c =? 123)%N then
            match skip_ws r with
            | "" => None
            | String d r' =>
                if (code d =? 125)%N then Some (JObj [], r')
                else match pmembers n' (String d r') with Some (l, r2) => Some (JObj l, r2) | None => None end
            end
          else match lex_num (String c r) with Some (t, r') => Some (JNum t, r') | None => None end
      end
  end
with pelems (n : nat) (s : string) {struct n} : option (list json * string) :=
  match n with
  | O => None
  | S n' =>
      match pval n' s with
      | None => None
      | Some (j, r) =>
          match skip_ws r with
          | "" => None
          | String d r' =>
              if (code d =? 93)%N then Some ([j], r')
              else if (code d =? 44)%N then
                match pelems n' r' with Some (l, r2) => Some (j :: l, r2) | None => None end
              else None
          end
      end
  end
with pmembers (n : nat) (s : string) {struct n} : option (list (string * json) * string) :=
  match n with
  | O => None
  | S n' =>
      match skip_ws s with
      | "" => None
      | String c r =>
          if (code c =? 34)%N then
            match pstr r with
            | None => None
            | Some (_, k, r1) =>
                match skip_ws r1 with
                | "" => None
                | String d r2 =>
                    if (code d =? 58)%N then
                      match pval n' r2 with
                      | None => None
                      | Some (j, r3) =>
                          match skip_ws r3 with
                          | "" => None
                          | String e r4 =>
                              if (code e =? 125)%N then Some ([(k, j)], r4)
                              else if (code e =? 44)%N then
                                match pmembers n' r4 with
                                | Some (l, r5) => Some ((k, j) :: l, r5)
                                | None => None
                                end
                              else None
                          end
                      end
                    else None
                end
            end
          else None
      end
  end.

(** [serde_json::from_str] up to the typed decoding: one value, then only white space. serde_json (Cargo.toml:21),
    called at src/messages/message.rs:198,433. *)
Definition parse (s : string) : option json :=
  match pval (S (2 * String.length s)) s with
  | Some (j, r) => match skip_ws r with "" => Some j | _ => None end
  | None => None
  end.

(** [serde_json::from_slice]: strings must be UTF-8. Called at src/messages/message.rs:585,603,
    src/messages/message_raw_crypto.rs:102,119,170,205. *)
Definition parse_slice (s : string) : option json :=
  if utf8_valid s then parse s else None.

(** Nesting depth: scalars 0, containers one more than their deepest child. serde_json (Cargo.toml:21), called at
    src/messages/message.rs:198,433. *)
Fixpoint depth (j : json) : nat :=
  match j with
  | JArr l => S (fold_right Nat.max 0 (map depth l))
  | JObj l => S (fold_right Nat.max 0 (map (fun kv => depth (snd kv)) l))
  | _ => 0
  end.
