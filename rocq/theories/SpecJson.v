(** JSON texts as RFC 8259 describes them, and UTF-8 as RFC 3629 describes it.  Nothing in this file is used by the model. *)

From Coq Require Import Ascii String NArith List Bool.
From Verif Require Import Bytes Json SpecText.
Import ListNotations.
Local Open Scope string_scope.

(** ** UTF-8 (RFC 3629 section 3) *)

(** A code point and its bytes: the bits of the number distributed over one to four bytes, shortest form only, no surrogates. *)
Inductive utf8_of : N -> string -> Prop :=
| u8_one : forall a, (a < 128)%N -> utf8_of a (String (chr a) "")
| u8_two : forall a b, (a < 32 -> b < 64 -> 128 <= a * 64 + b ->
    utf8_of (a * 64 + b) (String (chr (192 + a)) (String (chr (128 + b)) "")))%N
| u8_three : forall a b c, (a < 16 -> b < 64 -> c < 64 -> 2048 <= (a * 64 + b) * 64 + c ->
    ~ (55296 <= (a * 64 + b) * 64 + c <= 57343) ->
    utf8_of ((a * 64 + b) * 64 + c) (String (chr (224 + a)) (String (chr (128 + b)) (String (chr (128 + c)) ""))))%N
| u8_four : forall a b c d, (a < 8 -> b < 64 -> c < 64 -> d < 64 -> 65536 <= ((a * 64 + b) * 64 + c) * 64 + d < 1114112 ->
    utf8_of (((a * 64 + b) * 64 + c) * 64 + d)
      (String (chr (240 + a)) (String (chr (128 + b)) (String (chr (128 + c)) (String (chr (128 + d)) "")))))%N.
Inductive utf8_text : string -> Prop :=
| ut_nil : utf8_text ""
| ut_cons : forall n u s, utf8_of n u -> utf8_text s -> utf8_text (u ++ s).

(** ** Numbers (section 6) *)

Definition digits (s : string) : Prop := s <> "" /\ all_chars digit s.
Inductive int_part : string -> Prop :=
| ip_zero : int_part "0"
| ip_other : forall c s, between "1" "9" c -> all_chars digit s -> int_part (String c s).
Inductive frac_part : string -> Prop :=
| fp_none : frac_part ""
| fp_some : forall d, digits d -> frac_part ("." ++ d).
Inductive exp_part : string -> Prop :=
| xp_none : exp_part ""
| xp_some : forall e sg d, e = "e" \/ e = "E" -> sg = "" \/ sg = "+" \/ sg = "-" -> digits d -> exp_part (e ++ sg ++ d).
Inductive number_token : string -> Prop :=
| nt_intro : forall sg i f e, sg = "" \/ sg = "-" -> int_part i -> frac_part f -> exp_part e -> number_token (sg ++ i ++ f ++ e).

(** ** Strings (section 7) *)

Inductive hex_digit : ascii -> N -> Prop :=
| hx_digit : forall c, between "0" "9" c -> hex_digit c (code c - 48)
| hx_lower : forall c, between "a" "f" c -> hex_digit c (code c - 87)
| hx_upper : forall c, between "A" "F" c -> hex_digit c (code c - 55).
Inductive quad : string -> N -> Prop :=
| quad_intro : forall a b c d x y z t, hex_digit a x -> hex_digit b y -> hex_digit c z -> hex_digit d t ->
    quad (String a (String b (String c (String d "")))) (x * 4096 + y * 256 + z * 16 + t).
(** The letter after the backslash and the character it stands for. *)
Definition short_escapes : list (ascii * ascii) :=
  [(chr 34, chr 34); ("\"%char, "\"%char); ("/"%char, "/"%char); ("b"%char, chr 8); ("f"%char, chr 12); ("n"%char, chr 10);
   ("r"%char, chr 13); ("t"%char, chr 9)].
(** Text between the quotation marks, the bytes it stands for, and whether it contains an escape.  Two adjacent u-escapes that
    are a surrogate pair stand for one character; lone surrogates stand for nothing. *)
Inductive str_text : string -> string -> bool -> Prop :=
| st_end : str_text "" "" false
| st_plain : forall c t s e, c <> chr 34 -> c <> "\"%char -> (32 <= code c)%N -> str_text t s e -> str_text (String c t) (String c s) e
| st_short : forall x c t s e, In (x, c) short_escapes -> str_text t s e -> str_text ("\" ++ String x t) (String c s) true
| st_unicode : forall q n u t s e, quad q n -> utf8_of n u -> str_text t s e -> str_text ("\u" ++ q ++ t) (u ++ s) true
| st_pair : forall q1 q2 h l u t s e, quad q1 h -> quad q2 l -> (55296 <= h <= 56319)%N -> (56320 <= l <= 57343)%N ->
    utf8_of (65536 + (h - 55296) * 1024 + (l - 56320)) u -> str_text t s e ->
    str_text ("\u" ++ q1 ++ "\u" ++ q2 ++ t) (u ++ s) true.

(** ** Values (sections 2 to 5) *)

Definition blank (w : string) : Prop := all_chars (fun c => c = chr 32 \/ c = chr 9 \/ c = chr 10 \/ c = chr 13) w.
Definition quoted (t : string) : string := String (chr 34) t ++ String (chr 34) "".

Inductive denotes : json -> string -> Prop :=
| dn_null : denotes JNull "null"
| dn_true : denotes (JBool true) "true"
| dn_false : denotes (JBool false) "false"
| dn_num : forall t, number_token t -> denotes (JNum t) t
| dn_str : forall t s e, str_text t s e -> denotes (JStr e s) (quoted t)
| dn_arr_nil : forall w, blank w -> denotes (JArr []) ("[" ++ w ++ "]")
| dn_arr : forall l t, elements l t -> denotes (JArr l) ("[" ++ t ++ "]")
| dn_obj_nil : forall w, blank w -> denotes (JObj []) ("{" ++ w ++ "}")
| dn_obj : forall l t, members l t -> denotes (JObj l) ("{" ++ t ++ "}")
with elements : list json -> string -> Prop :=
| el_one : forall j w1 t w2, blank w1 -> denotes j t -> blank w2 -> elements [j] (w1 ++ t ++ w2)
| el_more : forall j w1 t w2 l u, blank w1 -> denotes j t -> blank w2 -> elements l u -> elements (j :: l) (w1 ++ t ++ w2 ++ "," ++ u)
with members : list (string * json) -> string -> Prop :=
| me_one : forall k kt e j w1 w2 w3 t w4, blank w1 -> str_text kt k e -> blank w2 -> blank w3 -> denotes j t -> blank w4 ->
    members [(k, j)] (w1 ++ quoted kt ++ w2 ++ ":" ++ w3 ++ t ++ w4)
| me_more : forall k kt e j w1 w2 w3 t w4 l u, blank w1 -> str_text kt k e -> blank w2 -> blank w3 -> denotes j t -> blank w4 -> members l u ->
    members ((k, j) :: l) (w1 ++ quoted kt ++ w2 ++ ":" ++ w3 ++ t ++ w4 ++ "," ++ u).

(** A JSON text and the tree it stands for. *)
Definition document (text : string) (j : json) : Prop := exists w1 t w2, blank w1 /\ denotes j t /\ blank w2 /\ text = w1 ++ t ++ w2.
