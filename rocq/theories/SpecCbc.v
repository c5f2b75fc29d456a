(** AES-256-CBC with padding, stated by indices. Used by C73; the model does not use it. *)

From Coq Require Import Ascii String Arith NArith List Bool.
From Verif Require Import SpecPrim.
Import ListNotations.
Local Open Scope N_scope.

(** The padded text: [p] bytes of value [p] follow. RFC 5652, section 6.3. *)
Definition padded_at (text : string) (p j : nat) : N := if (j <? String.length text)%nat then byte_at text j else N.of_nat p.
(** NIST SP 800-38A, section 6.2: block [i] of the result is the cipher of block [i] of the padded text plus the block before, which for the first one is [iv]. *)
Definition is_cbc (key iv text out : string) : Prop := exists (p n : nat),
  (1 <= p <= 16)%nat /\ (String.length text + p = 16 * n)%nat /\ String.length out = (16 * n)%nat /\
  forall i, (i < n)%nat -> exists x, String.length x = 16%nat /\
    (forall j, (j < 16)%nat -> byte_at x j = N.lxor (padded_at text p (16 * i + j)) (if (i =? 0)%nat then byte_at iv j else byte_at out (16 * (i - 1) + j))) /\
    is_aes key x (substring (16 * i) 16 out).
