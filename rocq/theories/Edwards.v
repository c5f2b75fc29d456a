(** The Edwards curve [x^2 + y^2 = 1 + d x^2 y^2] with [d = 121665/121666] over the integers modulo 2^255 - 19, and its group law.
    A proof device for [CurveFacts]: the ladder of [Curve] computes with the quotient [(1 + y) / (1 - y)] of multiples of a point of
    this curve. Nothing here is a model of code in /repo. *)

From Coq Require Import ZArith Znumtheory List Bool Lia Ring Field.
From Verif Require Import PrimeFacts Curve CurveField.
Local Open Scope fp_scope.

Definition on_curve (d x y : Fp) : Prop := x*x + y*y = 1 + d*x*x*y*y.
Lemma on_curve_zero : forall d x y, on_curve d x y -> x*x+y*y-(1+d*x*x*y*y) = 0.
Proof. intros d x y H. rewrite H. ring. Qed.
Lemma F_minus : forall a b, a - b = 0 -> a = b.
Proof. intros a b H. replace a with (a - b + b) by ring. rewrite H. ring. Qed.

(** ** Polynomial identities modulo the curve equations *)

Lemma assoc_x : forall d x1 y1 x2 y2 x3 y3, on_curve d x1 y1 -> on_curve d x2 y2 -> on_curve d x3 y3 ->
  ((x1*y2+y1*x2)*(1-d*x1*x2*y1*y2)*y3+(y1*y2-x1*x2)*(1+d*x1*x2*y1*y2)*x3)*((1+d*x2*x3*y2*y3)*(1-d*x2*x3*y2*y3)+d*x1*y1*(x2*y3+y2*x3)*(y2*y3-x2*x3)) =
  (x1*(y2*y3-x2*x3)*(1+d*x2*x3*y2*y3)+y1*(x2*y3+y2*x3)*(1-d*x2*x3*y2*y3))*((1+d*x1*x2*y1*y2)*(1-d*x1*x2*y1*y2)+d*(x1*y2+y1*x2)*(y1*y2-x1*x2)*x3*y3).
Proof.
  intros d x1 y1 x2 y2 x3 y3 H1 H2 H3. apply on_curve_zero in H1, H2, H3.
  apply F_minus. transitivity (- ((- (x1*x2*x2*x2*x2*y2*y2*y2*x3*x3*y3*d*d) + x1*x2*x2*x2*x2*y2*x3*x3*y3*d + x1*x2*x2*x2*y2*y2*y2*y2*x3*y3*y3*d*d + x1*x2*x2*x2*y2*y2*x3*x3*x3*d - x1*x2*x2*x2*y2*y2*x3*d - x1*x2*x2*y2*y2*y2*y3*y3*y3*d + x1*x2*x2*y2*y2*y2*y3*d - x1*x2*y2*y2*y2*y2*x3*y3*y3*d - y1*x2*x2*x2*x2*y2*y2*y2*x3*y3*y3*d*d + y1*x2*x2*x2*x2*y2*x3*y3*y3*d - y1*x2*x2*x2*y2*y2*y2*y2*x3*x3*y3*d*d - y1*x2*x2*x2*y2*y2*y3*y3*y3*d + y1*x2*x2*x2*y2*y2*y3*d - y1*x2*x2*y2*y2*y2*x3*x3*x3*d + y1*x2*x2*y2*y2*y2*x3*d + y1*x2*y2*y2*y2*y2*x3*x3*y3*d)*(x1*x1+y1*y1-(1+d*x1*x1*y1*y1)) + (- (x1*x1*x1*x2*x2*y2*x3*x3*y3*d) + x1*x1*x1*x2*y2*y2*x3*y3*y3*d - x1*x1*x1*x2*x3*x3*x3*y3*y3*d + x1*x1*x1*x2*x3*x3*x3 + x1*x1*x1*x2*x3*y3*y3 - x1*x1*x1*x2*x3 + x1*x1*x1*y2*x3*x3*y3*y3*y3*d - x1*x1*x1*y2*x3*x3*y3 - x1*x1*x1*y2*y3*y3*y3 + x1*x1*x1*y2*y3 + x1*x1*y1*x2*x2*y2*x3*x3*x3*y3*y3*d*d - x1*x1*y1*x2*x2*y2*x3*y3*y3*d + x1*x1*y1*x2*y2*y2*x3*x3*y3*y3*y3*d*d - x1*x1*y1*x2*y2*y2*x3*x3*y3*d + x1*x1*y1*x2*x3*x3*y3*y3*y3*d - x1*x1*y1*x2*x3*x3*y3 - x1*x1*y1*x2*y3*y3*y3 + x1*x1*y1*x2*y3 + x1*x1*y1*y2*x3*x3*x3*y3*y3*d - x1*x1*y1*y2*x3*x3*x3 - x1*x1*y1*y2*x3*y3*y3 + x1*x1*y1*y2*x3 + x1*y1*y1*x2*x2*y2*x3*x3*y3*y3*y3*d*d - x1*y1*y1*x2*x2*y2*x3*x3*y3*d - x1*y1*y1*x2*y2*y2*x3*x3*x3*y3*y3*d*d + x1*y1*y1*x2*y2*y2*x3*y3*y3*d - x1*y1*y1*x2*x3*x3*x3*y3*y3*d + x1*y1*y1*x2*x3*x3*x3 + x1*y1*y1*x2*x3*y3*y3 - x1*y1*y1*x2*x3 + x1*y1*y1*y2*x3*x3*y3*y3*y3*d - x1*y1*y1*y2*x3*x3*y3 - x1*y1*y1*y2*y3*y3*y3 + x1*y1*y1*y2*y3 + x1*x2*x2*y2*x3*x3*y3*d - x1*x2*y2*y2*x3*y3*y3*d + x1*x2*x3*x3*x3*y3*y3*d - x1*x2*x3*x3*x3 - x1*x2*x3*y3*y3 + x1*x2*x3 - x1*y2*x3*x3*y3*y3*y3*d + x1*y2*x3*x3*y3 + x1*y2*y3*y3*y3 - x1*y2*y3 - y1*y1*y1*x2*x2*y2*x3*y3*y3*d - y1*y1*y1*x2*y2*y2*x3*x3*y3*d + y1*y1*y1*x2*x3*x3*y3*y3*y3*d - y1*y1*y1*x2*x3*x3*y3 - y1*y1*y1*x2*y3*y3*y3 + y1*y1*y1*x2*y3 + y1*y1*y1*y2*x3*x3*x3*y3*y3*d - y1*y1*y1*y2*x3*x3*x3 - y1*y1*y1*y2*x3*y3*y3 + y1*y1*y1*y2*x3 + y1*x2*x2*y2*x3*y3*y3*d + y1*x2*y2*y2*x3*x3*y3*d - y1*x2*x3*x3*y3*y3*y3*d + y1*x2*x3*x3*y3 + y1*x2*y3*y3*y3 - y1*x2*y3 - y1*y2*x3*x3*x3*y3*y3*d + y1*y2*x3*x3*x3 + y1*y2*x3*y3*y3 - y1*y2*x3)*(x2*x2+y2*y2-(1+d*x2*x2*y2*y2)) + (- (x1*x1*x1*x2*x2*x2*x3) + x1*x1*x1*x2*x2*y2*y3 - x1*x1*x1*x2*y2*y2*x3 + x1*x1*x1*x2*x3 + x1*x1*x1*y2*y2*y2*y3 - x1*x1*x1*y2*y3 + x1*x1*y1*x2*x2*x2*y3 - x1*x1*y1*x2*x2*y2*x3*d + x1*x1*y1*x2*x2*y2*x3 - x1*x1*y1*x2*y2*y2*y3*d + x1*x1*y1*x2*y2*y2*y3 - x1*x1*y1*x2*y3 + x1*x1*y1*y2*y2*y2*x3 - x1*x1*y1*y2*x3 - x1*y1*y1*x2*x2*x2*x3 - x1*y1*y1*x2*x2*y2*y3*d + x1*y1*y1*x2*x2*y2*y3 + x1*y1*y1*x2*y2*y2*x3*d - x1*y1*y1*x2*y2*y2*x3 + x1*y1*y1*x2*x3 + x1*y1*y1*y2*y2*y2*y3 - x1*y1*y1*y2*y3 + x1*x2*x2*x2*x3 - x1*x2*x2*y2*y3 + x1*x2*y2*y2*x3 - x1*x2*x3 - x1*y2*y2*y2*y3 + x1*y2*y3 + y1*y1*y1*x2*x2*x2*y3 + y1*y1*y1*x2*x2*y2*x3 + y1*y1*y1*x2*y2*y2*y3 - y1*y1*y1*x2*y3 + y1*y1*y1*y2*y2*y2*x3 - y1*y1*y1*y2*x3 - y1*x2*x2*x2*y3 - y1*x2*x2*y2*x3 - y1*x2*y2*y2*y3 + y1*x2*y3 - y1*y2*y2*y2*x3 + y1*y2*x3)*(x3*x3+y3*y3-(1+d*x3*x3*y3*y3)))).
  - ring.
  - rewrite H1, H2, H3. ring.
Qed.
Lemma assoc_y : forall d x1 y1 x2 y2 x3 y3, on_curve d x1 y1 -> on_curve d x2 y2 -> on_curve d x3 y3 ->
  ((y1*y2-x1*x2)*(1+d*x1*x2*y1*y2)*y3-(x1*y2+y1*x2)*(1-d*x1*x2*y1*y2)*x3)*((1+d*x2*x3*y2*y3)*(1-d*x2*x3*y2*y3)-d*x1*y1*(x2*y3+y2*x3)*(y2*y3-x2*x3)) =
  (y1*(y2*y3-x2*x3)*(1+d*x2*x3*y2*y3)-x1*(x2*y3+y2*x3)*(1-d*x2*x3*y2*y3))*((1+d*x1*x2*y1*y2)*(1-d*x1*x2*y1*y2)-d*(x1*y2+y1*x2)*(y1*y2-x1*x2)*x3*y3).
Proof.
  intros d x1 y1 x2 y2 x3 y3 H1 H2 H3. apply on_curve_zero in H1, H2, H3.
  apply F_minus. transitivity (- ((x1*x2*x2*x2*x2*y2*y2*y2*x3*y3*y3*d*d - x1*x2*x2*x2*x2*y2*x3*y3*y3*d + x1*x2*x2*x2*y2*y2*y2*y2*x3*x3*y3*d*d + x1*x2*x2*x2*y2*y2*y3*y3*y3*d - x1*x2*x2*x2*y2*y2*y3*d + x1*x2*x2*y2*y2*y2*x3*x3*x3*d - x1*x2*x2*y2*y2*y2*x3*d - x1*x2*y2*y2*y2*y2*x3*x3*y3*d - y1*x2*x2*x2*x2*y2*y2*y2*x3*x3*y3*d*d + y1*x2*x2*x2*x2*y2*x3*x3*y3*d + y1*x2*x2*x2*y2*y2*y2*y2*x3*y3*y3*d*d + y1*x2*x2*x2*y2*y2*x3*x3*x3*d - y1*x2*x2*x2*y2*y2*x3*d - y1*x2*x2*y2*y2*y2*y3*y3*y3*d + y1*x2*x2*y2*y2*y2*y3*d - y1*x2*y2*y2*y2*y2*x3*y3*y3*d)*(x1*x1+y1*y1-(1+d*x1*x1*y1*y1)) + (x1*x1*x1*x2*x2*y2*x3*y3*y3*d + x1*x1*x1*x2*y2*y2*x3*x3*y3*d - x1*x1*x1*x2*x3*x3*y3*y3*y3*d + x1*x1*x1*x2*x3*x3*y3 + x1*x1*x1*x2*y3*y3*y3 - x1*x1*x1*x2*y3 - x1*x1*x1*y2*x3*x3*x3*y3*y3*d + x1*x1*x1*y2*x3*x3*x3 + x1*x1*x1*y2*x3*y3*y3 - x1*x1*x1*y2*x3 + x1*x1*y1*x2*x2*y2*x3*x3*y3*y3*y3*d*d - x1*x1*y1*x2*x2*y2*x3*x3*y3*d - x1*x1*y1*x2*y2*y2*x3*x3*x3*y3*y3*d*d + x1*x1*y1*x2*y2*y2*x3*y3*y3*d - x1*x1*y1*x2*x3*x3*x3*y3*y3*d + x1*x1*y1*x2*x3*x3*x3 + x1*x1*y1*x2*x3*y3*y3 - x1*x1*y1*x2*x3 + x1*x1*y1*y2*x3*x3*y3*y3*y3*d - x1*x1*y1*y2*x3*x3*y3 - x1*x1*y1*y2*y3*y3*y3 + x1*x1*y1*y2*y3 - x1*y1*y1*x2*x2*y2*x3*x3*x3*y3*y3*d*d + x1*y1*y1*x2*x2*y2*x3*y3*y3*d - x1*y1*y1*x2*y2*y2*x3*x3*y3*y3*y3*d*d + x1*y1*y1*x2*y2*y2*x3*x3*y3*d - x1*y1*y1*x2*x3*x3*y3*y3*y3*d + x1*y1*y1*x2*x3*x3*y3 + x1*y1*y1*x2*y3*y3*y3 - x1*y1*y1*x2*y3 - x1*y1*y1*y2*x3*x3*x3*y3*y3*d + x1*y1*y1*y2*x3*x3*x3 + x1*y1*y1*y2*x3*y3*y3 - x1*y1*y1*y2*x3 - x1*x2*x2*y2*x3*y3*y3*d - x1*x2*y2*y2*x3*x3*y3*d + x1*x2*x3*x3*y3*y3*y3*d - x1*x2*x3*x3*y3 - x1*x2*y3*y3*y3 + x1*x2*y3 + x1*y2*x3*x3*x3*y3*y3*d - x1*y2*x3*x3*x3 - x1*y2*x3*y3*y3 + x1*y2*x3 - y1*y1*y1*x2*x2*y2*x3*x3*y3*d + y1*y1*y1*x2*y2*y2*x3*y3*y3*d - y1*y1*y1*x2*x3*x3*x3*y3*y3*d + y1*y1*y1*x2*x3*x3*x3 + y1*y1*y1*x2*x3*y3*y3 - y1*y1*y1*x2*x3 + y1*y1*y1*y2*x3*x3*y3*y3*y3*d - y1*y1*y1*y2*x3*x3*y3 - y1*y1*y1*y2*y3*y3*y3 + y1*y1*y1*y2*y3 + y1*x2*x2*y2*x3*x3*y3*d - y1*x2*y2*y2*x3*y3*y3*d + y1*x2*x3*x3*x3*y3*y3*d - y1*x2*x3*x3*x3 - y1*x2*x3*y3*y3 + y1*x2*x3 - y1*y2*x3*x3*y3*y3*y3*d + y1*y2*x3*x3*y3 + y1*y2*y3*y3*y3 - y1*y2*y3)*(x2*x2+y2*y2-(1+d*x2*x2*y2*y2)) + (- (x1*x1*x1*x2*x2*x2*y3) - x1*x1*x1*x2*x2*y2*x3 - x1*x1*x1*x2*y2*y2*y3 + x1*x1*x1*x2*y3 - x1*x1*x1*y2*y2*y2*x3 + x1*x1*x1*y2*x3 - x1*x1*y1*x2*x2*x2*x3 - x1*x1*y1*x2*x2*y2*y3*d + x1*x1*y1*x2*x2*y2*y3 + x1*x1*y1*x2*y2*y2*x3*d - x1*x1*y1*x2*y2*y2*x3 + x1*x1*y1*x2*x3 + x1*x1*y1*y2*y2*y2*y3 - x1*x1*y1*y2*y3 - x1*y1*y1*x2*x2*x2*y3 + x1*y1*y1*x2*x2*y2*x3*d - x1*y1*y1*x2*x2*y2*x3 + x1*y1*y1*x2*y2*y2*y3*d - x1*y1*y1*x2*y2*y2*y3 + x1*y1*y1*x2*y3 - x1*y1*y1*y2*y2*y2*x3 + x1*y1*y1*y2*x3 + x1*x2*x2*x2*y3 + x1*x2*x2*y2*x3 + x1*x2*y2*y2*y3 - x1*x2*y3 + x1*y2*y2*y2*x3 - x1*y2*x3 - y1*y1*y1*x2*x2*x2*x3 + y1*y1*y1*x2*x2*y2*y3 - y1*y1*y1*x2*y2*y2*x3 + y1*y1*y1*x2*x3 + y1*y1*y1*y2*y2*y2*y3 - y1*y1*y1*y2*y3 + y1*x2*x2*x2*x3 - y1*x2*x2*y2*y3 + y1*x2*y2*y2*x3 - y1*x2*x3 - y1*y2*y2*y2*y3 + y1*y2*y3)*(x3*x3+y3*y3-(1+d*x3*x3*y3*y3)))).
  - ring.
  - rewrite H1, H2, H3. ring.
Qed.
Lemma closed : forall d x1 y1 x2 y2, on_curve d x1 y1 -> on_curve d x2 y2 ->
  (x1*y2+y1*x2)*(x1*y2+y1*x2)*((1-d*x1*x2*y1*y2)*(1-d*x1*x2*y1*y2))+(y1*y2-x1*x2)*(y1*y2-x1*x2)*((1+d*x1*x2*y1*y2)*(1+d*x1*x2*y1*y2)) =
  (1+d*x1*x2*y1*y2)*(1+d*x1*x2*y1*y2)*((1-d*x1*x2*y1*y2)*(1-d*x1*x2*y1*y2))+d*((x1*y2+y1*x2)*(x1*y2+y1*x2))*((y1*y2-x1*x2)*(y1*y2-x1*x2)).
Proof.
  intros d x1 y1 x2 y2 H1 H2. apply on_curve_zero in H1, H2.
  apply F_minus. transitivity (- ((- (x1*x1*y1*y1*x2*x2*x2*x2*y2*y2*y2*y2*d*d*d) - x1*x1*x2*x2*x2*x2*y2*y2*y2*y2*d*d + x1*x1*x2*x2*x2*x2*y2*y2*d + x1*x1*x2*x2*y2*y2*y2*y2*d - y1*y1*x2*x2*x2*x2*y2*y2*y2*y2*d*d + y1*y1*x2*x2*x2*x2*y2*y2*d + y1*y1*x2*x2*y2*y2*y2*y2*d + x2*x2*x2*x2*y2*y2*y2*y2*d*d - (1+1)*x2*x2*x2*x2*y2*y2*y2*y2*d + (1+1)*x2*x2*x2*x2*y2*y2 - x2*x2*x2*x2 + (1+1)*x2*x2*y2*y2*y2*y2 + (1+1)*x2*x2*y2*y2*d - (1+1+1+1)*x2*x2*y2*y2 - y2*y2*y2*y2)*(x1*x1+y1*y1-(1+d*x1*x1*y1*y1)) + (- (x1*x1*x1*x1*x2*x2*y2*y2*d) + (1+1)*x1*x1*x2*x2*y2*y2*d - (1+1)*x1*x1*x2*x2*y2*y2 + x1*x1*x2*x2 + x1*x1*y2*y2 - y1*y1*y1*y1*x2*x2*y2*y2*d + (1+1)*y1*y1*x2*x2*y2*y2*d - (1+1)*y1*y1*x2*x2*y2*y2 + y1*y1*x2*x2 + y1*y1*y2*y2 - x2*x2*y2*y2*d + (1+1)*x2*x2*y2*y2 - x2*x2 - y2*y2 - 1)*(x2*x2+y2*y2-(1+d*x2*x2*y2*y2)))).
  - ring.
  - rewrite H1, H2. ring.
Qed.
Lemma differential : forall d x1 y1 x2 y2, on_curve d x1 y1 -> on_curve d x2 y2 ->
  (y1+y2)*(y1+y2)*((1-d*x1*x2*y1*y2-(y1*y2-x1*x2))*(1+d*x1*x2*y1*y2-(y1*y2+x1*x2))) =
  (y2-y1)*(y2-y1)*((1-d*x1*x2*y1*y2+(y1*y2-x1*x2))*(1+d*x1*x2*y1*y2+(y1*y2+x1*x2))).
Proof.
  intros d x1 y1 x2 y2 H1 H2. apply on_curve_zero in H1, H2.
  apply F_minus. transitivity (- ((- ((1+1+1+1)*y1*x2*x2*y2*y2*y2*d) + (1+1+1+1)*y1*x2*x2*y2)*(x1*x1+y1*y1-(1+d*x1*x1*y1*y1)) + (- ((1+1+1+1)*y1*y1*y1*y2) + (1+1+1+1)*y1*y2)*(x2*x2+y2*y2-(1+d*x2*x2*y2*y2)))).
  - ring.
  - rewrite H1, H2. ring.
Qed.

(** ** The parameter is not a square *)

Lemma inj_small_nz : forall x, (0 < x < 1000000)%Z -> inj x <> 0.
Proof.
  intros x HX H. rewrite F0_def in H. apply inj_eq in H. pose proof p_big. apply cong_eq in H; lia.
Qed.
Lemma F_div_one : forall a, a / 1 = a.
Proof. intros a. transitivity (a * (Finv 1 * 1)); [change (a / 1) with (a * Finv 1); ring|]. rewrite Finv_l by exact F_one_zero. ring. Qed.
Lemma F_div_zero : forall b, b <> 0 -> 0 / b = 0.
Proof. intros b H. field. exact H. Qed.
Lemma F_div_self : forall b, b <> 0 -> b / b = 1.
Proof. intros b H. field. exact H. Qed.
Lemma F_div_mul : forall a b, b <> 0 -> a / b * b = a.
Proof. intros a b H. field. exact H. Qed.
(** Opaque, so that no tactic tries to compute it. *)
Lemma ed_exists : {e : Fp | e * inj 121666 = inj 121665}.
Proof. exists (inj 121665 / inj 121666). apply F_div_mul. apply inj_small_nz. lia. Qed.
Definition ed : Fp := proj1_sig ed_exists.
Lemma ed_eq : ed * inj 121666 = inj 121665.
Proof. exact (proj2_sig ed_exists). Qed.
Lemma ed_nonsquare : forall z, z * z <> ed.
Proof.
  intros z H. assert (K : (z * inj 121666) * (z * inj 121666) = inj (121665 * 121666)).
  { rewrite inj_mul, <- ed_eq, <- H. ring. }
  rewrite <- (inj_val (z * inj 121666)) in K. rewrite <- inj_mul in K. apply inj_eq in K. revert K.
  pose proof p_big. apply euler_nonsquare; [exact p_prime|lia|exact p_odd|exact p_euler].
Qed.
Lemma ed_nz : ed <> 0.
Proof. intros H. apply (ed_nonsquare 0). rewrite H. ring. Qed.
Lemma ed_one : ed <> 1.
Proof. intros H. apply (ed_nonsquare 1). rewrite H. ring. Qed.
Lemma ed_a24 : inj 121665 * (1 - ed) = ed.
Proof.
  apply (F_cancel (inj 121666)); [apply inj_small_nz; lia|].
  replace (inj 121666 * (inj 121665 * (1 - ed))) with (inj 121665 * (inj 121666 - ed * inj 121666)) by ring. rewrite ed_eq.
  replace (inj 121666 - inj 121665) with (inj 1) by (rewrite <- inj_sub; reflexivity).
  rewrite <- F1_def. replace (inj 121666 * ed) with (ed * inj 121666) by ring. rewrite ed_eq. ring.
Qed.
Global Opaque ed.

(** ** Completeness *)

Lemma no_square_ratio : forall a b, a * a = ed * (b * b) -> b = 0.
Proof.
  intros a b H. destruct (F_dec b 0) as [C|C]; [exact C|]. exfalso. apply (ed_nonsquare (a / b)).
  replace (a / b * (a / b)) with ((a * a) / (b * b)) by (field; exact C). rewrite H. field. exact C.
Qed.
Lemma complete_sq : forall x1 y1 x2 y2, on_curve ed x1 y1 -> on_curve ed x2 y2 ->
  (ed*x1*x2*y1*y2)*(ed*x1*x2*y1*y2) <> 1.
Proof.
  intros x1 y1 x2 y2 H1 H2 HT. remember (ed*x1*x2*y1*y2) as t eqn:ET.
  assert (S1 : (x1 + t*y1)*(x1 + t*y1) = ed*((x1*y1*(x2+y2))*(x1*y1*(x2+y2)))).
  { replace ((x1 + t*y1)*(x1 + t*y1)) with (x1*x1 + t*t*(y1*y1) + (1+1)*(t*x1*y1)) by ring. rewrite HT.
    replace (x1*x1 + 1*(y1*y1)) with (x1*x1+y1*y1) by ring. rewrite H1.
    replace (ed*((x1*y1*(x2+y2))*(x1*y1*(x2+y2)))) with (ed*x1*x1*y1*y1*(x2*x2+y2*y2) + (1+1)*(ed*x1*x2*y1*y2*x1*y1)) by ring.
    rewrite <- ET, H2. transitivity (t*t + ed*x1*x1*y1*y1 + (1+1)*(t*x1*y1)); [rewrite HT; ring|]. rewrite ET. ring. }
  assert (S2 : (x1 - t*y1)*(x1 - t*y1) = ed*((x1*y1*(x2-y2))*(x1*y1*(x2-y2)))).
  { replace ((x1 - t*y1)*(x1 - t*y1)) with (x1*x1 + t*t*(y1*y1) - (1+1)*(t*x1*y1)) by ring. rewrite HT.
    replace (x1*x1 + 1*(y1*y1)) with (x1*x1+y1*y1) by ring. rewrite H1.
    replace (ed*((x1*y1*(x2-y2))*(x1*y1*(x2-y2)))) with (ed*x1*x1*y1*y1*(x2*x2+y2*y2) - (1+1)*(ed*x1*x2*y1*y2*x1*y1)) by ring.
    rewrite <- ET, H2. transitivity (t*t + ed*x1*x1*y1*y1 - (1+1)*(t*x1*y1)); [rewrite HT; ring|]. rewrite ET. ring. }
  apply no_square_ratio in S1. apply no_square_ratio in S2.
  assert (Z : x1*y1*x2 = 0).
  { apply (F_cancel (1+1)); [exact F_two|]. replace ((1+1)*(x1*y1*x2)) with (x1*y1*(x2+y2) + x1*y1*(x2-y2)) by ring. rewrite S1, S2. ring. }
  assert (T0 : t = 0) by (rewrite ET; replace (ed*x1*x2*y1*y2) with (ed*y2*(x1*y1*x2)) by ring; rewrite Z; ring).
  apply F_one_zero. rewrite <- HT, T0. ring.
Qed.
Lemma complete_plus : forall x1 y1 x2 y2, on_curve ed x1 y1 -> on_curve ed x2 y2 -> 1 + ed*x1*x2*y1*y2 <> 0.
Proof.
  intros x1 y1 x2 y2 H1 H2 H. apply (complete_sq x1 y1 x2 y2 H1 H2).
  replace (ed*x1*x2*y1*y2) with (1 + ed*x1*x2*y1*y2 - 1) by ring. rewrite H. ring.
Qed.
Lemma complete_minus : forall x1 y1 x2 y2, on_curve ed x1 y1 -> on_curve ed x2 y2 -> 1 - ed*x1*x2*y1*y2 <> 0.
Proof.
  intros x1 y1 x2 y2 H1 H2 H. apply (complete_sq x1 y1 x2 y2 H1 H2).
  replace (ed*x1*x2*y1*y2) with (1 - (1 - ed*x1*x2*y1*y2)) by ring. rewrite H. ring.
Qed.

(** ** The group *)

Definition point : Set := (Fp * Fp)%type.
Definition on (P : point) : Prop := on_curve ed (fst P) (snd P).
Definition padd (P Q : point) : point :=
  let (x1, y1) := P in let (x2, y2) := Q in
  ((x1*y2+y1*x2)/(1+ed*x1*x2*y1*y2), (y1*y2-x1*x2)/(1-ed*x1*x2*y1*y2)).
Definition pzero : point := (0, 1).
Definition popp (P : point) : point := (- fst P, snd P).

Lemma F_div_eq : forall a b c e, b <> 0 -> e <> 0 -> a * e = c * b -> a / b = c / e.
Proof.
  intros a b c e HB HE H. apply (F_cancel (b * e)); [now apply F_mul_nz|].
  replace (b * e * (a / b)) with (a * e) by (field; exact HB). replace (b * e * (c / e)) with (c * b) by (field; exact HE). exact H.
Qed.
Lemma on_padd : forall P Q, on P -> on Q -> on (padd P Q).
Proof.
  intros [x1 y1] [x2 y2] H1 H2. unfold on in *. cbn [fst snd padd] in *. pose proof (complete_plus _ _ _ _ H1 H2) as HP.
  pose proof (complete_minus _ _ _ _ H1 H2) as HM. pose proof (closed _ _ _ _ _ H1 H2) as HC. unfold on_curve.
  set (D1 := 1+ed*x1*x2*y1*y2) in *. set (D2 := 1-ed*x1*x2*y1*y2) in *. set (N1 := x1*y2+y1*x2) in *. set (N2 := y1*y2-x1*x2) in *.
  clearbody D1 D2 N1 N2. apply (F_cancel (D1*D1*(D2*D2))); [repeat apply F_mul_nz; assumption|].
  replace (D1*D1*(D2*D2)*(N1/D1*(N1/D1)+N2/D2*(N2/D2))) with (N1*N1*(D2*D2)+N2*N2*(D1*D1)) by (field; split; assumption).
  rewrite HC. field. split; assumption.
Qed.
Lemma padd_comm : forall P Q, padd P Q = padd Q P.
Proof.
  intros [x1 y1] [x2 y2]. cbn [padd]. replace (ed*x2*x1*y2*y1) with (ed*x1*x2*y1*y2) by ring. f_equal; f_equal; ring.
Qed.
Lemma padd_zero_r : forall P, padd P pzero = P.
Proof.
  intros [x y]. unfold pzero. cbn [padd]. replace (1+ed*x*0*y*1) with 1 by ring. replace (1-ed*x*0*y*1) with 1 by ring.
  rewrite !F_div_one. f_equal; ring.
Qed.
Lemma padd_opp : forall P, on P -> padd P (popp P) = pzero.
Proof.
  intros [x y] H. unfold on in H. unfold pzero, popp. cbn [padd fst snd] in *. assert (HO : on_curve ed (- x) y).
  { unfold on_curve in *. replace (- x * - x) with (x*x) by ring. rewrite H. ring. }
  pose proof (complete_plus _ _ _ _ H HO) as HP. pose proof (complete_minus _ _ _ _ H HO) as HM.
  f_equal.
  - replace (x*y+y*- x) with 0 by ring. now apply F_div_zero.
  - assert (E : y*y - x * - x = 1 - ed*x*(- x)*y*y) by (replace (y*y - x * - x) with (x*x+y*y) by ring; rewrite H; ring).
    rewrite E. now apply F_div_self.
Qed.
Lemma on_popp : forall P, on P -> on (popp P).
Proof.
  intros [x y] H. unfold on, on_curve in *. cbn [popp fst snd] in *. replace (- x * - x) with (x*x) by ring. rewrite H. ring.
Qed.
Lemma on_pzero : on pzero.
Proof. unfold on, on_curve, pzero. cbn [fst snd]. ring. Qed.
Lemma padd_assoc : forall P Q R, on P -> on Q -> on R -> padd (padd P Q) R = padd P (padd Q R).
Proof.
  intros [x1 y1] [x2 y2] [x3 y3] H1 H2 H3. pose proof (on_padd _ _ H1 H2) as H12. pose proof (on_padd _ _ H2 H3) as H23.
  unfold on in *. cbn [fst snd padd] in *.
  pose proof (assoc_x _ _ _ _ _ _ _ H1 H2 H3) as AX. pose proof (assoc_y _ _ _ _ _ _ _ H1 H2 H3) as AY.
  pose proof (complete_plus _ _ _ _ H1 H2) as HD1. pose proof (complete_minus _ _ _ _ H1 H2) as HD2.
  pose proof (complete_plus _ _ _ _ H2 H3) as HE1. pose proof (complete_minus _ _ _ _ H2 H3) as HE2.
  pose proof (complete_plus _ _ _ _ H12 H3) as LP. pose proof (complete_minus _ _ _ _ H12 H3) as LM.
  pose proof (complete_plus _ _ _ _ H1 H23) as RP. pose proof (complete_minus _ _ _ _ H1 H23) as RM.
  set (D1 := 1+ed*x1*x2*y1*y2) in *. set (D2 := 1-ed*x1*x2*y1*y2) in *. set (N1 := x1*y2+y1*x2) in *. set (N2 := y1*y2-x1*x2) in *.
  set (E1 := 1+ed*x2*x3*y2*y3) in *. set (E2 := 1-ed*x2*x3*y2*y3) in *. set (M1 := x2*y3+y2*x3) in *. set (M2 := y2*y3-x2*x3) in *.
  clearbody D1 D2 N1 N2 E1 E2 M1 M2. clear H1 H2 H3 H12 H23.
  f_equal; apply F_div_eq; try assumption; apply (F_cancel (D1*D2*(E1*E2))); try (repeat apply F_mul_nz; assumption).
  - transitivity ((N1*D2*y3+N2*D1*x3)*(E1*E2+ed*x1*y1*M1*M2)); [field; repeat split; assumption|]. rewrite AX.
    field; repeat split; assumption.
  - transitivity ((N2*D1*y3-N1*D2*x3)*(E1*E2-ed*x1*y1*M1*M2)); [field; repeat split; assumption|]. rewrite AY.
    field; repeat split; assumption.
Qed.

(** ** Multiples *)

Fixpoint pmul (n : nat) (P : point) : point :=
  match n with
  | O => pzero
  | S m => padd (pmul m P) P
  end.
Lemma on_pmul : forall n P, on P -> on (pmul n P).
Proof. induction n as [|n IH]; intros P H; cbn [pmul]; [exact on_pzero|]. apply on_padd; [now apply IH|exact H]. Qed.
Lemma pmul_add : forall a b P, on P -> pmul (a + b) P = padd (pmul a P) (pmul b P).
Proof.
  intros a b P H. induction b as [|b IH].
  - rewrite Nat.add_0_r. cbn [pmul]. now rewrite padd_zero_r.
  - rewrite Nat.add_succ_r. cbn [pmul]. rewrite IH. apply padd_assoc; auto using on_pmul.
Qed.
Lemma pmul_pmul : forall a b P, on P -> pmul a (pmul b P) = pmul (a * b) P.
Proof.
  intros a b P H. induction a as [|a IH]; [reflexivity|]. cbn [pmul]. rewrite IH. replace (S a * b)%nat with (a * b + b)%nat by lia.
  symmetry. now apply pmul_add.
Qed.
