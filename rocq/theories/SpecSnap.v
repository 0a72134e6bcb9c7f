(** Specification vocabulary for C110: a client of the crate that rounds the corners of a box outward to integers. *)
From Coq Require Import ZArith Reals.
From Verif Require Import Scalar Types Vector2 Vector3 Point2 Point3 Ray BoundingBox2 BoundingBox3 Arith SpecOrder SpecFloat SpecErr.
Section S.
Context {S : Type} {O : ScalarOps S}.
(* new(min.floor(), max.ceil()) *)
Definition snap2 (b : BoundingBox2 S) : BoundingBox2 S := bb2_new (p2_floor (bb2_min b)) (p2_ceil (bb2_max b)).
Definition snap3 (b : BoundingBox3 S) : BoundingBox3 S := bb3_new (p3_floor (bb3_min b)) (p3_ceil (bb3_max b)).
End S.
Section A.
Context {A : arith}.
(* an integer or an infinity *)
Definition Integral (x : num A) : Prop := NoNaN x /\ (Finite x -> exists z : Z, real_of x = IZR z).
Definition Integral2 (p : Point2 (num A)) : Prop := forall d, Integral (coord2 p d).
Definition Integral3 (p : Point3 (num A)) : Prop := forall d, Integral (coord3 p d).
Definition IntBox2 (b : BoundingBox2 (num A)) : Prop := Integral2 (bb2_min b) /\ Integral2 (bb2_max b).
Definition IntBox3 (b : BoundingBox3 (num A)) : Prop := Integral3 (bb3_min b) /\ Integral3 (bb3_max b).
End A.
