(** Vocabulary for the curve drawn by polynomial frames, on real numbers. *)
From Coq Require Import List ZArith Reals.
From Verif Require Import Base Model_Float Spec.
Import ListNotations.
Open Scope Z_scope.

(** The [k]-th stored position of a series of [n] samples: every [step]-th one, and the last. *)
Definition knot (n step k : Z) : Z := Z.min (k * step) (n - 1).

(** The straight line through (a, va) and (b, vb). *)
Definition straight (a va b vb t : R) : R := (va + (vb - va) * ((t - a) / (b - a)))%R.

(** [q] is a polynomial of degree at most 3 through (a, va) with slope [sa] and (b, vb) with slope [sb]. *)
Definition hermite_curve (a va sa b vb sb : R) (q : R -> R) : Prop :=
  (exists c0 c1 c2 c3, forall t, q t = c0 + c1 * t + c2 * t ^ 2 + c3 * t ^ 3)%R /\
  q a = va /\ q b = vb /\ derivable_pt_lim q a sa /\ derivable_pt_lim q b sb.

(** The slope of the line through the stored values at the positions [i] and [j]. *)
Definition secant (v : Z -> R) (i j : Z) : R := ((v j - v i) / (IZR j - IZR i))%R.

(** [drawn n step v pos w]: the curve through the stored values [v] has the value [w] at [pos]. It goes through the stored values, is
    straight between the first two and between the last two knots, and is a Catmull-Rom spline elsewhere: between two knots a cubic
    whose slope at a knot is the slope of the line through the two neighbouring knots. *)
Inductive drawn (n step : Z) (v : Z -> R) (pos : Z) : R -> Prop :=
| D_stored : (step | pos) \/ pos = n - 1 -> drawn n step v pos (v pos)
| D_line k : let a := knot n step k in let b := knot n step (k + 1) in
    0 <= k -> a < pos < b -> k = 0 \/ b = n - 1 ->
    drawn n step v pos (straight (IZR a) (v a) (IZR b) (v b) (IZR pos))
| D_curve k q : let x := knot n step (k - 1) in let a := knot n step k in let b := knot n step (k + 1) in let y := knot n step (k + 2) in
    0 < k -> a < pos < b -> b < n - 1 ->
    hermite_curve (IZR a) (v a) (secant v x b) (IZR b) (v b) (secant v a y) q ->
    drawn n step v pos (q (IZR pos)).

(** The real value of the sample at a position. *)
Definition value_at (data : list f64) (pos : Z) : R := R64 (nth (Z.to_nat pos) data f0).
