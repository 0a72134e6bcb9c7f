(** Specification vocabulary for boxes and rays in exact arithmetic. *)
From Coq Require Import Reals.
From Verif Require Import Scalar Types XReal SpecReal.
Local Open Scope R_scope.

(* min <= max in every dimension *)
Definition Rordered2 (b : BoundingBox2 R) : Prop :=
  p2x (bb2_min b) <= p2x (bb2_max b) /\ p2y (bb2_min b) <= p2y (bb2_max b).
Definition Rordered3 (b : BoundingBox3 R) : Prop :=
  p3x (bb3_min b) <= p3x (bb3_max b) /\ p3y (bb3_min b) <= p3y (bb3_max b) /\ p3z (bb3_min b) <= p3z (bb3_max b).
(* membership of a point *)
Definition Rin2 (p : Point2 R) (b : BoundingBox2 R) : Prop :=
  p2x (bb2_min b) <= p2x p <= p2x (bb2_max b) /\ p2y (bb2_min b) <= p2y p <= p2y (bb2_max b).
Definition Rin3 (p : Point3 R) (b : BoundingBox3 R) : Prop :=
  p3x (bb3_min b) <= p3x p <= p3x (bb3_max b) /\ p3y (bb3_min b) <= p3y p <= p3y (bb3_max b) /\
  p3z (bb3_min b) <= p3z p <= p3z (bb3_max b).
(* the point of a ray at parameter t *)
Definition Rat2 (r : Ray2 R) (t : R) : Point2 R :=
  mkPoint2 (p2x (r2_origin r) + t * v2x (r2_direction r)) (p2y (r2_origin r) + t * v2y (r2_direction r)).
Definition Rat3 (r : Ray3 R) (t : R) : Point3 R :=
  mkPoint3 (p3x (r3_origin r) + t * v3x (r3_direction r)) (p3y (r3_origin r) + t * v3y (r3_direction r))
           (p3z (r3_origin r) + t * v3z (r3_direction r)).
(* the ray does not run inside the plane of a face: if it is parallel to the faces of an axis, its origin is on neither *)
Definition off_plane (o d lo hi : R) : Prop := d = 0 -> o <> lo /\ o <> hi.
Definition off_faces2 (b : BoundingBox2 R) (r : Ray2 R) : Prop :=
  off_plane (p2x (r2_origin r)) (v2x (r2_direction r)) (p2x (bb2_min b)) (p2x (bb2_max b)) /\
  off_plane (p2y (r2_origin r)) (v2y (r2_direction r)) (p2y (bb2_min b)) (p2y (bb2_max b)).
Definition off_faces3 (b : BoundingBox3 R) (r : Ray3 R) : Prop :=
  off_plane (p3x (r3_origin r)) (v3x (r3_direction r)) (p3x (bb3_min b)) (p3x (bb3_max b)) /\
  off_plane (p3y (r3_origin r)) (v3y (r3_direction r)) (p3y (bb3_min b)) (p3y (bb3_max b)) /\
  off_plane (p3z (r3_origin r)) (v3z (r3_direction r)) (p3z (bb3_min b)) (p3z (bb3_max b)).
(* box inclusion *)
Definition Rsub_box2 (a b : BoundingBox2 R) : Prop := forall p, Rin2 p a -> Rin2 p b.
Definition Rsub_box3 (a b : BoundingBox3 R) : Prop := forall p, Rin3 p a -> Rin3 p b.

(* what the slab test of one axis reports at parameter t: the closed slab, except that a ray parallel to the slab is
   only seen strictly between two different faces, or inside a slab of zero thickness *)
Definition slab_seen (o d lo hi t : R) : Prop := lo <= o + t * d <= hi /\ (d = 0 -> lo < o < hi \/ lo = hi).
Definition seen2 (b : BoundingBox2 R) (r : Ray2 R) (t : R) : Prop :=
  slab_seen (p2x (r2_origin r)) (v2x (r2_direction r)) (p2x (bb2_min b)) (p2x (bb2_max b)) t /\
  slab_seen (p2y (r2_origin r)) (v2y (r2_direction r)) (p2y (bb2_min b)) (p2y (bb2_max b)) t.
Definition seen3 (b : BoundingBox3 R) (r : Ray3 R) (t : R) : Prop :=
  slab_seen (p3x (r3_origin r)) (v3x (r3_direction r)) (p3x (bb3_min b)) (p3x (bb3_max b)) t /\
  slab_seen (p3y (r3_origin r)) (v3y (r3_direction r)) (p3y (bb3_min b)) (p3y (bb3_max b)) t /\
  slab_seen (p3z (r3_origin r)) (v3z (r3_direction r)) (p3z (bb3_min b)) (p3z (bb3_max b)) t.

(* no row of the linear part sends two extents of the box in opposite directions *)
Definition same_direction2 (m : Matrix3x3 R) (b : BoundingBox2 R) : Prop :=
  let w := p2x (bb2_max b) - p2x (bb2_min b) in let h := p2y (bb2_max b) - p2y (bb2_min b) in
  0 <= (m3_0 m * w) * (m3_1 m * h) /\ 0 <= (m3_3 m * w) * (m3_4 m * h).
Definition same_direction3 (m : Matrix4x4 R) (b : BoundingBox3 R) : Prop :=
  let w := p3x (bb3_max b) - p3x (bb3_min b) in let h := p3y (bb3_max b) - p3y (bb3_min b) in
  let d := p3z (bb3_max b) - p3z (bb3_min b) in
  let row a b c := 0 <= (a * w) * (b * h) /\ 0 <= (a * w) * (c * d) /\ 0 <= (b * h) * (c * d) in
  row (m4_0 m) (m4_1 m) (m4_2 m) /\ row (m4_4 m) (m4_5 m) (m4_6 m) /\ row (m4_8 m) (m4_9 m) (m4_10 m).
