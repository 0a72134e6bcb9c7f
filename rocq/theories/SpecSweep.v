(** Specification vocabulary for C111: clients of the crate.  Boxes that move with a constant velocity. *)
From Coq Require Import Reals.
From Verif Require Import Scalar Types Vector2 Vector3 Point2 Point3 Ray BoundingBox2 BoundingBox3.
Section S.
Context {S : Type} {O : ScalarOps S}.
(* the box moved by w: new(min + w, max + w) *)
Definition shift2 (b : BoundingBox2 S) (w : Vector2 S) : BoundingBox2 S := bb2_new (p2_add (bb2_min b) w) (p2_add (bb2_max b) w).
Definition shift3 (b : BoundingBox3 S) (w : Vector3 S) : BoundingBox3 S := bb3_new (p3_add (bb3_min b) w) (p3_add (bb3_max b) w).
(* the box at time t, moving with velocity v *)
Definition moved2 (b : BoundingBox2 S) (v : Vector2 S) (t : S) : BoundingBox2 S := shift2 b (v2_mul v t).
Definition moved3 (b : BoundingBox3 S) (v : Vector3 S) (t : S) : BoundingBox3 S := shift3 b (v3_mul v t).
(* the box around the motion between times s and t *)
Definition swept2 (b : BoundingBox2 S) (v : Vector2 S) (s t : S) : BoundingBox2 S := bb2_union (moved2 b v s) (moved2 b v t).
Definition swept3 (b : BoundingBox3 S) (v : Vector3 S) (s t : S) : BoundingBox3 S := bb3_union (moved3 b v s) (moved3 b v t).
(* the obstacle c grown by the mirrored extents of b: new(c.min - b.max, c.max - b.min) *)
Definition grown2 (c b : BoundingBox2 S) : BoundingBox2 S := bb2_new (p2_from (p2_sub (bb2_min c) (bb2_max b))) (p2_from (p2_sub (bb2_max c) (bb2_min b))).
Definition grown3 (c b : BoundingBox3 S) : BoundingBox3 S := bb3_new (p3_from (p3_sub (bb3_min c) (bb3_max b))) (p3_from (p3_sub (bb3_max c) (bb3_min b))).
End S.
(* the same in real numbers *)
Definition Rgrown2 (c b : BoundingBox2 R) : BoundingBox2 R := (mkBB2 (mkPoint2 (p2x (bb2_min c) - p2x (bb2_max b)) (p2y (bb2_min c) - p2y (bb2_max b)))
  (mkPoint2 (p2x (bb2_max c) - p2x (bb2_min b)) (p2y (bb2_max c) - p2y (bb2_min b))))%R.
Definition Rgrown3 (c b : BoundingBox3 R) : BoundingBox3 R := (mkBB3 (mkPoint3 (p3x (bb3_min c) - p3x (bb3_max b)) (p3y (bb3_min c) - p3y (bb3_max b)) (p3z (bb3_min c) - p3z (bb3_max b)))
  (mkPoint3 (p3x (bb3_max c) - p3x (bb3_min b)) (p3y (bb3_max c) - p3y (bb3_min b)) (p3z (bb3_max c) - p3z (bb3_min b))))%R.
