(** Specification vocabulary for C92: the parameters at which a ray is reported to be in a box. *)
From Verif Require Import Scalar Types Ray BoundingBox2 BoundingBox3 SpecOrder SpecFloat.
Section A.
Context {S : Type} {O : ScalarOps S}.
(* t lies in the range returned by intersecting the box with the ray *)
Definition HitAt2 (b : BoundingBox2 S) (r : Ray2 S) (t : S) : Prop := exists s e, bb2_intersect_ray b r = Some (s, e) /\ Le s t /\ Le t e.
Definition HitAt3 (b : BoundingBox3 S) (r : Ray3 S) (t : S) : Prop := exists s e, bb3_intersect_ray b r = Some (s, e) /\ Le s t /\ Le t e.
(* on the axes along which the ray does not move, its origin is on no face plane of the box *)
Definition NotGrazing2 (b : BoundingBox2 S) (r : Ray2 S) : Prop := forall d, Eqs (vcoord2 (r2_direction r) d) szero ->
  ~ Eqs (coord2 (r2_origin r) d) (coord2 (bb2_min b) d) /\ ~ Eqs (coord2 (r2_origin r) d) (coord2 (bb2_max b) d).
Definition NotGrazing3 (b : BoundingBox3 S) (r : Ray3 S) : Prop := forall d, Eqs (vcoord3 (r3_direction r) d) szero ->
  ~ Eqs (coord3 (r3_origin r) d) (coord3 (bb3_min b) d) /\ ~ Eqs (coord3 (r3_origin r) d) (coord3 (bb3_max b) d).
End A.
