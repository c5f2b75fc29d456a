(** Specification vocabulary for problem codes and DID URLs (properties C34, C35). *)

From Coq Require Import Ascii String Arith NArith List Bool.
From Verif Require Import Bytes Regex.
Import ListNotations.
Local Open Scope string_scope.

(** ** What a regular expression denotes *)

Inductive lang : re -> string -> Prop :=
| l_eps : lang REps ""
| l_cls : forall f c, f c = true -> lang (RCls f) (String c "")
| l_seq : forall a b s t, lang a s -> lang b t -> lang (RSeq a b) (s ++ t)
| l_left : forall a b s, lang a s -> lang (RAlt a b) s
| l_right : forall a b s, lang b s -> lang (RAlt a b) s
| l_done : forall a, lang (RStar a) ""
| l_more : forall a s t, lang a s -> lang (RStar a) t -> lang (RStar a) (s ++ t).

(** ** Characters *)

Definition all_chars (P : ascii -> Prop) (s : string) : Prop := forall c, In c (list_ascii_of_string s) -> P c.
Definition between (lo hi c : ascii) : Prop := (N_of_ascii lo <= N_of_ascii c <= N_of_ascii hi)%N.
Definition lower_letter (c : ascii) : Prop := between "a" "z" c.
Definition letter (c : ascii) : Prop := between "a" "z" c \/ between "A" "Z" c.
Definition digit (c : ascii) : Prop := between "0" "9" c.

(** ** Problem codes *)

Definition word (s : string) : Prop := all_chars (fun c => letter c \/ c = "-"%char) s.
(** Up to two dots; with two of them, the first part has no hyphen. *)
Inductive problem_tail : string -> Prop :=
| pt_one : forall x, word x -> problem_tail x
| pt_two : forall x y, word x -> word y -> problem_tail (x ++ "." ++ y)
| pt_three : forall x y z, all_chars letter x -> word y -> word z -> problem_tail (x ++ "." ++ y ++ "." ++ z).
Definition problem_code (s : string) : Prop :=
  exists kind scope t, (kind = "e" \/ kind = "w" \/ kind = "|") /\
    1 <= String.length scope <= 32 /\ all_chars (fun c => lower_letter c \/ digit c) scope /\
    problem_tail t /\ s = kind ++ "." ++ scope ++ "." ++ t.

(** ** DIDs and DID URLs as the crate understands them *)

Definition did_char (c : ascii) : Prop := letter c \/ digit c \/ c = "."%char \/ c = "-"%char \/ c = "_"%char \/ c = "%"%char.
Definition did (d : string) : Prop :=
  exists method segments id, method <> "" /\ all_chars lower_letter method /\
    (forall x, In x segments -> all_chars lower_letter x) /\ id <> "" /\ all_chars did_char id /\
    d = "did:" ++ method ++ ":" ++ String.concat "" (map (fun x => x ++ ":") segments) ++ id.
Definition did_url (s d : string) : Prop :=
  did d /\ exists path query fragment,
    (path = "" \/ exists p, path = "/" ++ p /\ all_chars (fun c => c <> "?"%char /\ c <> "#"%char) p) /\
    (query = "" \/ exists q, query = "?" ++ q /\ all_chars (fun c => c <> "#"%char) q) /\
    (fragment = "" \/ exists f, fragment = "#" ++ f /\ all_chars (fun c => N_of_ascii c <> 10%N) f) /\
    s = d ++ path ++ query ++ fragment.
