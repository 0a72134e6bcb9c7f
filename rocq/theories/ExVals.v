(** Concrete values for the examples beside the theorems (f64 on the sample platform, and exact reals). *)
From Coq Require Import ZArith Reals.
From Flocq Require Import IEEE754.BinarySingleNaN.
From Verif Require Import Scalar Types Float XReal Arith.

Definition is_some {T} (o : option T) : bool := match o with Some _ => true | None => false end.

Definition A64 : arith := IEEE F64 (platform0 F64).
Definition A32 : arith := IEEE F32 (platform0 F32).
(* m * 2^e and -(m * 2^e) *)
Definition d64 (m e : Z) : num A64 := flit F64 m e.
Definition nd64 (m e : Z) : num A64 := flit F64 (- m) e.
Definition d32 (m e : Z) : num A32 := flit F32 m e.
Definition nan64 : num A64 := B754_nan.

Definition ptA2 : Point2 (num A64) := mkPoint2 (d64 1 0) (d64 3 (-1)).
Definition ptB2 : Point2 (num A64) := mkPoint2 (nd64 5 0) (d64 7 0).
Definition ptN2 : Point2 (num A64) := mkPoint2 nan64 (d64 1 0).
Definition boxA2 : BoundingBox2 (num A64) := mkBB2 (mkPoint2 (d64 0 0) (nd64 1 0)) (mkPoint2 (d64 2 0) (d64 3 0)).
Definition boxB2 : BoundingBox2 (num A64) := mkBB2 (mkPoint2 (d64 1 0) (d64 1 0)) (mkPoint2 (d64 5 0) (d64 9 0)).
Definition rayA2 : Ray2 (num A64) := mkRay2 (mkPoint2 (nd64 1 0) (d64 0 0)) (mkVector2 (d64 1 0) (d64 1 (-2))).

Definition ptA3 : Point3 (num A64) := mkPoint3 (d64 1 0) (d64 3 (-1)) (d64 1 (-3)).
Definition ptB3 : Point3 (num A64) := mkPoint3 (nd64 5 0) (d64 7 0) (d64 1 0).
Definition ptN3 : Point3 (num A64) := mkPoint3 nan64 (d64 1 0) (d64 1 0).
Definition boxA3 : BoundingBox3 (num A64) :=
  mkBB3 (mkPoint3 (d64 0 0) (nd64 1 0) (nd64 2 0)) (mkPoint3 (d64 2 0) (d64 3 0) (d64 4 0)).
Definition boxB3 : BoundingBox3 (num A64) :=
  mkBB3 (mkPoint3 (d64 1 0) (d64 1 0) (d64 1 0)) (mkPoint3 (d64 5 0) (d64 9 0) (d64 8 0)).
Definition rayA3 : Ray3 (num A64) :=
  mkRay3 (mkPoint3 (nd64 1 0) (d64 0 0) (d64 1 0)) (mkVector3 (d64 1 0) (d64 1 (-2)) (d64 1 (-3))).
