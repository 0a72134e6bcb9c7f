(** Specification vocabulary for floating-point properties: finiteness, and the real number a float stands for. *)
From Coq Require Import ZArith Reals List.
Import ListNotations.
From Flocq Require Import IEEE754.BinarySingleNaN.
From Verif Require Import Scalar Types Float XReal Arith SpecOrder.

Section Generic.
Context {S : Type} {O : ScalarOps S}.
(* neither infinite nor NaN *)
Definition Finite (x : S) : Prop := slt (sabs x) sinf = true.
Definition Finite2 (p : Point2 S) : Prop := forall d, Finite (coord2 p d).
Definition Finite3 (p : Point3 S) : Prop := forall d, Finite (coord3 p d).
Definition VFinite2 (v : Vector2 S) : Prop := forall d, Finite (vcoord2 v d).
Definition VFinite3 (v : Vector3 S) : Prop := forall d, Finite (vcoord3 v d).
Definition BFinite2 (b : BoundingBox2 S) : Prop := Finite2 (bb2_min b) /\ Finite2 (bb2_max b).
Definition BFinite3 (b : BoundingBox3 S) : Prop := Finite3 (bb3_min b) /\ Finite3 (bb3_max b).
Definition MFinite3 (m : Matrix3x3 S) : Prop := Forall Finite [m3_0 m; m3_1 m; m3_2 m; m3_3 m; m3_4 m; m3_5 m; m3_6 m; m3_7 m; m3_8 m].
Definition MFinite4 (m : Matrix4x4 S) : Prop :=
  Forall Finite [m4_0 m; m4_1 m; m4_2 m; m4_3 m; m4_4 m; m4_5 m; m4_6 m; m4_7 m; m4_8 m; m4_9 m; m4_10 m; m4_11 m; m4_12 m; m4_13 m; m4_14 m; m4_15 m].
(* not negative; true of NaN *)
Definition NotNeg (x : S) : Prop := slt x szero = false.
End Generic.

(** ** The real number a finite scalar stands for *)
Definition RealVal {A : arith} : num A -> R -> Prop :=
  match A with
  | IEEE f _ => fun x r => is_finite x = true /\ B2R x = r
  | EXACT => fun x r => x = Fin r
  end.

(** ** Integer parts of a real number *)
Local Open Scope R_scope.
(* the greatest integer <= r *)
Definition floor_of (r : R) (n : Z) : Prop := IZR n <= r < IZR n + 1.
(* the least integer >= r *)
Definition ceil_of (r : R) (n : Z) : Prop := IZR n - 1 < r <= IZR n.
(* the nearest integer, ties away from zero *)
Definition round_of (r : R) (n : Z) : Prop :=
  Rabs (r - IZR n) <= / 2 /\ (Rabs (r - IZR n) = / 2 -> Rabs r < Rabs (IZR n)).
(* the integer part towards zero *)
Definition trunc_of (r : R) (n : Z) : Prop := Rabs (IZR n) <= Rabs r < Rabs (IZR n) + 1 /\ 0 <= IZR n * r.
