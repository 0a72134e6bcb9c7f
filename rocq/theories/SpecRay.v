(** Specification vocabulary for rays and boxes in floating point: exact geometry of finite scalar inputs. *)
From Coq Require Import Reals.
From Verif Require Import Scalar Types Arith SpecOrder SpecErr.
Local Open Scope R_scope.
Section Ray.
Context {A : arith}.
(* the exact point of the ray at real parameter t lies in the box, each face moved outwards by [w face dimension] *)
Definition exact_hit_within2 (w : num A -> Dimension2 -> R) (b : BoundingBox2 (num A)) (r : Ray2 (num A)) (t : R) : Prop :=
  forall d, real_of (coord2 (bb2_min b) d) - w (coord2 (bb2_min b) d) d
            <= real_of (coord2 (r2_origin r) d) + t * real_of (vcoord2 (r2_direction r) d)
            <= real_of (coord2 (bb2_max b) d) + w (coord2 (bb2_max b) d) d.
Definition exact_hit_within3 (w : num A -> Dimension3 -> R) (b : BoundingBox3 (num A)) (r : Ray3 (num A)) (t : R) : Prop :=
  forall d, real_of (coord3 (bb3_min b) d) - w (coord3 (bb3_min b) d) d
            <= real_of (coord3 (r3_origin r) d) + t * real_of (vcoord3 (r3_direction r) d)
            <= real_of (coord3 (bb3_max b) d) + w (coord3 (bb3_max b) d) d.
(* the exact point of the ray at real parameter t lies in the box *)
Definition exact_hit2 (b : BoundingBox2 (num A)) (r : Ray2 (num A)) (t : R) : Prop := forall d,
  real_of (coord2 (bb2_min b) d) <= real_of (coord2 (r2_origin r) d) + t * real_of (vcoord2 (r2_direction r) d) <= real_of (coord2 (bb2_max b) d).
Definition exact_hit3 (b : BoundingBox3 (num A)) (r : Ray3 (num A)) (t : R) : Prop := forall d,
  real_of (coord3 (bb3_min b) d) <= real_of (coord3 (r3_origin r) d) + t * real_of (vcoord3 (r3_direction r) d) <= real_of (coord3 (bb3_max b) d).
(* how far a parameter computed in floating point may be off *)
Definition slack (t : R) : R := 3 * unit_roundoff A * Rabs t + min_subnormal A.
End Ray.
Arguments slack A t : clear implicits.
