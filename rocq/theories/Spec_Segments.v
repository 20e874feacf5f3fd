(** The segments of an index, described without reference to how they are built: cut the points into runs, each as long as possible.
    A run starts with two points, their distance is its period m; point number j of the run (j = 2, 3, ...) must lie in
    [y0 + m*j, y0 + m*(j+1)). A last point may stand alone. *)
From Coq Require Import List ZArith.
From Verif Require Import Base Model_Vsri.
Import ListNotations.
Open Scope Z_scope.

Definition fits_at (m y0 j y : Z) : Prop := y0 + m * j <= y < y0 + m * (j + 1).
Inductive all_fit (m y0 : Z) : Z -> list Z -> Prop :=
| AF_nil j : all_fit m y0 j []
| AF_cons j y ys : fits_at m y0 j y -> all_fit m y0 (j + 1) ys -> all_fit m y0 j (y :: ys).
Definition stops (m y0 j : Z) (rest : list Z) : Prop := match rest with [] => True | y :: _ => ~ fits_at m y0 j y end.

(** [segmentation x ys segs]: the points [ys], numbered from [x] on, make the segments [segs]. *)
Inductive segmentation : Z -> list Z -> list segment -> Prop :=
| SG_nil x : segmentation x [] []
| SG_one x y : segmentation x [y] [Seg 0 x y 1]
| SG_run x y0 y1 run rest segs :
    all_fit (y1 - y0) y0 2 run -> stops (y1 - y0) y0 (2 + Z.of_nat (length run)) rest ->
    segmentation (x + 2 + Z.of_nat (length run)) rest segs ->
    segmentation x (y0 :: y1 :: run ++ rest) (Seg (y1 - y0) x y0 (2 + Z.of_nat (length run)) :: segs).
