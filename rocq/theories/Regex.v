(** Regular expressions: the fragment of the regex crate (Cargo.toml:41) that the two patterns of the crate need
    (src/messages/problem_report.rs:19, src/messages/helpers/encryption.rs:385-402), matched against whole byte strings.
    Both patterns are anchored on both sides.  The patterns are Unicode-aware but only name ASCII characters, and the
    negated classes and the dot accept every byte of a multi-byte character, so matching bytes is the same as matching
    characters on valid UTF-8. *)

From Coq Require Import Ascii String NArith List Bool.
From Verif Require Import Bytes.
Import ListNotations.
Local Open Scope string_scope.

(** Patterns: src/messages/problem_report.rs:19, src/messages/helpers/encryption.rs:385-402. *)
Inductive re :=
| REmp
| REps
| RCls (f : ascii -> bool)
| RSeq (a b : re)
| RAlt (a b : re)
| RStar (a : re).

(** Does the pattern match the empty text? src/messages/problem_report.rs:19,
    src/messages/helpers/encryption.rs:385-402. *)
Fixpoint nullable (r : re) : bool :=
  match r with
  | REmp => false
  | REps => true
  | RCls _ => false
  | RSeq a b => nullable a && nullable b
  | RAlt a b => nullable a || nullable b
  | RStar _ => true
  end.

(** What is left of a pattern after one character: src/messages/problem_report.rs:19,
    src/messages/helpers/encryption.rs:385-402. *)
Fixpoint deriv (c : ascii) (r : re) : re :=
  match r with
  | REmp | REps => REmp
  | RCls f => if f c then REps else REmp
  | RSeq a b => if nullable a then RAlt (RSeq (deriv c a) b) (deriv c b) else RSeq (deriv c a) b
  | RAlt a b => RAlt (deriv c a) (deriv c b)
  | RStar a => RSeq (deriv c a) (RStar a)
  end.

(** [Regex::is_match] of an anchored pattern. src/messages/problem_report.rs:19,
    src/messages/helpers/encryption.rs:385-402. *)
Fixpoint re_match (r : re) (s : string) : bool :=
  match s with
  | "" => nullable r
  | String c t => re_match (deriv c r) t
  end.

(** Derived forms. [?] of src/messages/problem_report.rs:19, src/messages/helpers/encryption.rs:385-402. *)
Definition ROpt (r : re) : re := RAlt REps r.
(** [+] of src/messages/problem_report.rs:19, src/messages/helpers/encryption.rs:385-402. *)
Definition RPlus (r : re) : re := RSeq r (RStar r).
(** At most [n] times: the counted repetition of src/messages/problem_report.rs:19. *)
Fixpoint RUpTo (n : nat) (r : re) : re :=
  match n with O => REps | S n' => ROpt (RSeq r (RUpTo n' r)) end.
(** A range of a character class: src/messages/problem_report.rs:19, src/messages/helpers/encryption.rs:385-402. *)
Definition in_range (lo hi : N) (c : ascii) : bool := ((lo <=? code c) && (code c <=? hi))%N.
(** Range a-z: src/messages/problem_report.rs:19, src/messages/helpers/encryption.rs:385-402. *)
Definition lower : ascii -> bool := in_range 97 122.
(** Range A-Z: src/messages/problem_report.rs:19, src/messages/helpers/encryption.rs:385-402. *)
Definition upper : ascii -> bool := in_range 65 90.
(** One character of a class: src/messages/problem_report.rs:19, src/messages/helpers/encryption.rs:385-402. *)
Definition is_char (n : N) (c : ascii) : bool := (code c =? n)%N.
(** One character: src/messages/problem_report.rs:19, src/messages/helpers/encryption.rs:385-402. *)
Definition RChr (n : N) : re := RCls (is_char n).
(** A literal: src/messages/helpers/encryption.rs:389. *)
Fixpoint RLit (s : string) : re :=
  match s with "" => REps | String c r => RSeq (RCls (Ascii.eqb c)) (RLit r) end.

(** src/messages/problem_report.rs:19. The first class contains the three characters e, vertical bar, w. *)
Definition problem_re : re :=
  let ident := RStar (RCls (fun c => is_char 45 c || lower c || upper c)) in
  let dot := RChr 46 in
  RSeq (RCls (fun c => is_char 101 c || is_char 124 c || is_char 119 c))
   (RSeq dot
    (RSeq (RSeq (RCls (fun c => lower c || is_digit c)) (RUpTo 31 (RCls (fun c => lower c || is_digit c))))
     (RSeq dot
      (RSeq (RStar (RCls (fun c => lower c || upper c)))
       (RSeq (ROpt dot)
        (RSeq ident
         (RSeq (ROpt dot) ident))))))).

(** src/messages/helpers/encryption.rs:389-394: the named group. *)
Definition did_re : re :=
  RSeq (RLit "did:")
   (RSeq (RPlus (RCls lower))
    (RSeq (RChr 58)
     (RSeq (RStar (RSeq (RStar (RCls lower)) (RChr 58)))
      (RPlus (RCls (fun c => lower c || upper c || is_digit c || is_char 46 c || is_char 45 c
                             || is_char 95 c || is_char 37 c)))))).

(** src/messages/helpers/encryption.rs:396-398: optional path, query and fragment. *)
Definition did_tail_re : re :=
  RSeq (ROpt (RSeq (RChr 47) (RStar (RCls (fun c => negb (is_char 63 c) && negb (is_char 35 c))))))
   (RSeq (ROpt (RSeq (RChr 63) (RStar (RCls (fun c => negb (is_char 35 c))))))
    (ROpt (RSeq (RChr 35) (RStar (RCls (fun c => negb (is_char 10 c))))))).

(** src/messages/helpers/encryption.rs:384-410. The group is the part of the text before the tail; the split is
    unique (proved in RegexFacts.v), so the search strategy of the regex engine does not matter. *)
Definition did_of_url (url : string) : string :=
  match find (fun n => re_match did_re (take n url) && re_match did_tail_re (drop n url))
             (seq 0 (S (String.length url))) with
  | Some n => take n url
  | None => ""
  end.
