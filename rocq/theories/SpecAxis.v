(** Specification vocabulary: linear parts that send axes to axes (scalings, reflections, quarter turns and their products). *)
From Coq Require Import Reals.
From Verif Require Import Scalar Types XReal SpecReal.
Local Open Scope R_scope.
(* entry of the linear part: coefficient of source axis j in target axis i *)
Definition lin2 (m : Matrix3x3 R) (i j : Dimension2) : R :=
  match i, j with D2X, D2X => m3_0 m | D2X, D2Y => m3_1 m | D2Y, D2X => m3_3 m | D2Y, D2Y => m3_4 m end.
Definition lin3 (m : Matrix4x4 R) (i j : Dimension3) : R :=
  match i, j with
  | D3X, D3X => m4_0 m | D3X, D3Y => m4_1 m | D3X, D3Z => m4_2 m
  | D3Y, D3X => m4_4 m | D3Y, D3Y => m4_5 m | D3Y, D3Z => m4_6 m
  | D3Z, D3X => m4_8 m | D3Z, D3Y => m4_9 m | D3Z, D3Z => m4_10 m
  end.
(* target axis i is a non-zero multiple of source axis s i, and different target axes have different sources *)
Definition axis_preserving2 (m : Matrix3x3 R) : Prop :=
  exists s : Dimension2 -> Dimension2, (forall i j, s i = s j -> i = j) /\ (forall i j, lin2 m i j <> 0 <-> j = s i).
Definition axis_preserving3 (m : Matrix4x4 R) : Prop :=
  exists s : Dimension3 -> Dimension3, (forall i j, s i = s j -> i = j) /\ (forall i j, lin3 m i j <> 0 <-> j = s i).
