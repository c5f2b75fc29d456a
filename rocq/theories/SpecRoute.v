(** Specification vocabulary for routed messages. Nothing in this file is used by the model. *)

From Coq Require Import Ascii String Arith NArith List Bool.
From Verif Require Import Bytes Json Types.
Import ListNotations.
Local Open Scope string_scope.

(** JSON value and the text it stands for: an array of numbers, one per byte, in decimal. *)
Inductive byte_list : list json -> string -> Prop :=
| bl_nil : byte_list [] ""
| bl_cons : forall c l s, byte_list l s -> byte_list (JNum (dec_of_N (code c)) :: l) (String c s).
(** The body of a forward message: where to send, and the bytes to send. *)
Definition forwards (body : json) (next payload : string) : Prop :=
  exists es b l, body = JObj es /\ In ("next", JStr b next) es /\ In ("payloads~attach", JArr l) es /\ byte_list l payload /\ NoDup (map fst es).
