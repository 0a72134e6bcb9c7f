(** Specification vocabulary for rotations in floating point (C78): the exact rotations of the plane and of space,
    how accurate the platform's sin_cos is at an angle, and the rotations the API offers. *)
From Coq Require Import Reals.
From Verif Require Import Scalar Types Vector3 Transform2 Transform3 Float XReal Arith SpecOrder SpecFloat SpecReal SpecErr.
Local Open Scope R_scope.

(* counterclockwise rotation of the plane *)
Definition Rrot2 (a : R) (v : Vector2 R) : Vector2 R := mkVector2 (cos a * v2x v - sin a * v2y v) (sin a * v2x v + cos a * v2y v).
(* right-handed rotations about the coordinate axes *)
Definition Rrot_x (a : R) (v : Vector3 R) : Vector3 R := mkVector3 (v3x v) (cos a * v3y v - sin a * v3z v) (sin a * v3y v + cos a * v3z v).
Definition Rrot_y (a : R) (v : Vector3 R) : Vector3 R := mkVector3 (cos a * v3x v + sin a * v3z v) (v3y v) (cos a * v3z v - sin a * v3x v).
Definition Rrot_z (a : R) (v : Vector3 R) : Vector3 R := mkVector3 (cos a * v3x v - sin a * v3y v) (sin a * v3x v + cos a * v3y v) (v3z v).
(* Rodrigues' formula: rotation about the axis k, of any length: v cos a + (n x v) sin a + n (n.v) (1 - cos a) with n = k/|k| *)
Definition Rrot_axis (k : Vector3 R) (a : R) (v : Vector3 R) : Vector3 R :=
  let nx := v3x k / Rnorm3 k in let ny := v3y k / Rnorm3 k in let nz := v3z k / Rnorm3 k in
  let dot := (nx * v3x v + ny * v3y v + nz * v3z v) * (1 - cos a) in
  mkVector3 (cos a * v3x v + sin a * (ny * v3z v - nz * v3y v) + dot * nx)
            (cos a * v3y v + sin a * (nz * v3x v - nx * v3z v) + dot * ny)
            (cos a * v3z v + sin a * (nx * v3y v - ny * v3x v) + dot * nz).

(* sum of the magnitudes of the components *)
Definition Rsum2 (v : Vector2 R) : R := Rabs (v2x v) + Rabs (v2y v).
Definition Rsum3 (v : Vector3 R) : R := Rabs (v3x v) + Rabs (v3y v) + Rabs (v3z v).
Definition toV2 (p : Point2 R) : Vector2 R := mkVector2 (p2x p) (p2y p).
Definition toV3 (p : Point3 R) : Vector3 R := mkVector3 (p3x p) (p3y p) (p3z p).

Section A.
Context {A : arith}.
(* the platform's sin_cos is accurate to e at this angle *)
Definition SinCosWithin (angle : num A) (e : R) : Prop :=
  let (s, c) := ssin_cos angle in
  Finite s /\ Finite c /\ Rabs (real_of s - sin (real_of angle)) <= e /\ Rabs (real_of c - cos (real_of angle)) <= e.
(* [Rotation angle e t f e']: t is one of the API's rotations by that angle, f the exact rotation it stands for, and e' the accuracy
   its matrix has when sin_cos is accurate to e *)
Inductive Rotation (angle : num A) (e : R) : Transform3 (num A) -> (R -> Vector3 R -> Vector3 R) -> R -> Prop :=
| Rot_x : Rotation angle e (t3_rotate_x angle) Rrot_x e
| Rot_y : Rotation angle e (t3_rotate_y angle) Rrot_y e
| Rot_z : Rotation angle e (t3_rotate_z angle) Rrot_z e
| Rot_axis (k : Vector3 (num A)) :
    Finite (v3_dot k k) -> min_subnormal A <= unit_roundoff A * real_of (v3_dot k k) -> 0 < Rnorm3 (RV3 k) ->
    Rotation angle e (t3_rotate_axis k angle) (Rrot_axis (RV3 k)) (2 * e + 52 * unit_roundoff A).
End A.
