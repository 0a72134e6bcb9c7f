(** Theorems: C86 (the points computed from a ray-box hit).
    [A] ranges over f32 and f64 on every platform, and exact reals (where unit_roundoff and min_subnormal are 0). *)
From Coq Require Import Bool NArith ZArith Reals List Lra Lia.
From Verif Require Import Scalar Types Vector2 Vector3 Point2 Point3 Ray BoundingBox2 BoundingBox3 Float
  XReal Arith SpecOrder SpecFloat SpecReal SpecErr SpecRay ExVals FloatHit.
Import ListNotations.
Local Open Scope R_scope.
(** * C86: the ray enters the box through a face turned towards its origin, and leaves it through one turned away; so do the computed points *)
Theorem C86_entry_on_near_face_2d : forall (A : arith) (b : BoundingBox2 (num A)) (r : Ray2 (num A)) (s e : num A), Ordered2 b ->
  VFinite2 (p2_sub (bb2_min b) (r2_origin r)) -> VFinite2 (p2_sub (bb2_max b) (r2_origin r)) -> VFinite2 (r2_direction r) ->
  bb2_intersect_ray b r = Some (s, e) -> Finite s -> Lt szero s ->
  exists d, let o := real_of (coord2 (r2_origin r) d) in let v := real_of (vcoord2 (r2_direction r) d) in
    v <> 0 /\ exists face, (0 < v -> face = coord2 (bb2_min b) d) /\ (v < 0 -> face = coord2 (bb2_max b) d) /\
    let w := 3 * unit_roundoff A * Rabs (real_of face - o) + min_subnormal A * Rabs v in
    Rabs (o + real_of s * v - real_of face) <= w /\
    (Finite (coord2 (r2_at r s) d) ->
     Rabs (real_of (coord2 (r2_at r s) d) - real_of face) <= w + (((1 + unit_roundoff A) ^ 2 - 1) * (Rabs o + Rabs v * Rabs (real_of s)) + min_subnormal A)).
Proof. exact C86_entry_on_near_face_2d_pf. Qed.
Print Assumptions C86_entry_on_near_face_2d.
Theorem C86_entry_on_near_face_3d : forall (A : arith) (b : BoundingBox3 (num A)) (r : Ray3 (num A)) (s e : num A), Ordered3 b ->
  VFinite3 (p3_sub (bb3_min b) (r3_origin r)) -> VFinite3 (p3_sub (bb3_max b) (r3_origin r)) -> VFinite3 (r3_direction r) ->
  bb3_intersect_ray b r = Some (s, e) -> Finite s -> Lt szero s ->
  exists d, let o := real_of (coord3 (r3_origin r) d) in let v := real_of (vcoord3 (r3_direction r) d) in
    v <> 0 /\ exists face, (0 < v -> face = coord3 (bb3_min b) d) /\ (v < 0 -> face = coord3 (bb3_max b) d) /\
    let w := 3 * unit_roundoff A * Rabs (real_of face - o) + min_subnormal A * Rabs v in
    Rabs (o + real_of s * v - real_of face) <= w /\
    (Finite (coord3 (r3_at r s) d) ->
     Rabs (real_of (coord3 (r3_at r s) d) - real_of face) <= w + (((1 + unit_roundoff A) ^ 2 - 1) * (Rabs o + Rabs v * Rabs (real_of s)) + min_subnormal A)).
Proof. exact C86_entry_on_near_face_3d_pf. Qed.
Print Assumptions C86_entry_on_near_face_3d.
Theorem C86_exit_on_far_face_2d : forall (A : arith) (b : BoundingBox2 (num A)) (r : Ray2 (num A)) (s e : num A), Ordered2 b ->
  VFinite2 (p2_sub (bb2_min b) (r2_origin r)) -> VFinite2 (p2_sub (bb2_max b) (r2_origin r)) -> VFinite2 (r2_direction r) ->
  bb2_intersect_ray b r = Some (s, e) -> Finite e ->
  exists d, let o := real_of (coord2 (r2_origin r) d) in let v := real_of (vcoord2 (r2_direction r) d) in
    v <> 0 /\ exists face, (0 < v -> face = coord2 (bb2_max b) d) /\ (v < 0 -> face = coord2 (bb2_min b) d) /\
    let w := 3 * unit_roundoff A * Rabs (real_of face - o) + min_subnormal A * Rabs v in
    Rabs (o + real_of e * v - real_of face) <= w /\
    (Finite (coord2 (r2_at r e) d) ->
     Rabs (real_of (coord2 (r2_at r e) d) - real_of face) <= w + (((1 + unit_roundoff A) ^ 2 - 1) * (Rabs o + Rabs v * Rabs (real_of e)) + min_subnormal A)).
Proof. exact C86_exit_on_far_face_2d_pf. Qed.
Print Assumptions C86_exit_on_far_face_2d.
Theorem C86_exit_on_far_face_3d : forall (A : arith) (b : BoundingBox3 (num A)) (r : Ray3 (num A)) (s e : num A), Ordered3 b ->
  VFinite3 (p3_sub (bb3_min b) (r3_origin r)) -> VFinite3 (p3_sub (bb3_max b) (r3_origin r)) -> VFinite3 (r3_direction r) ->
  bb3_intersect_ray b r = Some (s, e) -> Finite e ->
  exists d, let o := real_of (coord3 (r3_origin r) d) in let v := real_of (vcoord3 (r3_direction r) d) in
    v <> 0 /\ exists face, (0 < v -> face = coord3 (bb3_max b) d) /\ (v < 0 -> face = coord3 (bb3_min b) d) /\
    let w := 3 * unit_roundoff A * Rabs (real_of face - o) + min_subnormal A * Rabs v in
    Rabs (o + real_of e * v - real_of face) <= w /\
    (Finite (coord3 (r3_at r e) d) ->
     Rabs (real_of (coord3 (r3_at r e) d) - real_of face) <= w + (((1 + unit_roundoff A) ^ 2 - 1) * (Rabs o + Rabs v * Rabs (real_of e)) + min_subnormal A)).
Proof. exact C86_exit_on_far_face_3d_pf. Qed.
Print Assumptions C86_exit_on_far_face_3d.
(** * C86: at every parameter of the range the computed point is in the box, up to rounding *)
Theorem C86_computed_points_near_box_2d : forall (A : arith) (b : BoundingBox2 (num A)) (r : Ray2 (num A)) (s e t : num A), Ordered2 b ->
  VFinite2 (p2_sub (bb2_min b) (r2_origin r)) -> VFinite2 (p2_sub (bb2_max b) (r2_origin r)) -> VFinite2 (r2_direction r) ->
  bb2_intersect_ray b r = Some (s, e) -> Finite e -> Le s t -> Le t e ->
  forall d, Finite (coord2 (r2_at r t) d) ->
  let o := real_of (coord2 (r2_origin r) d) in let v := real_of (vcoord2 (r2_direction r) d) in
  let w := fun face => 3 * unit_roundoff A * Rabs (real_of face - o) + min_subnormal A * Rabs v + (((1 + unit_roundoff A) ^ 2 - 1) * (Rabs o + Rabs v * Rabs (real_of t)) + min_subnormal A) in
  real_of (coord2 (bb2_min b) d) - w (coord2 (bb2_min b) d) <= real_of (coord2 (r2_at r t) d) <= real_of (coord2 (bb2_max b) d) + w (coord2 (bb2_max b) d).
Proof. exact C86_computed_points_near_box_2d_pf. Qed.
Print Assumptions C86_computed_points_near_box_2d.
Theorem C86_computed_points_near_box_3d : forall (A : arith) (b : BoundingBox3 (num A)) (r : Ray3 (num A)) (s e t : num A), Ordered3 b ->
  VFinite3 (p3_sub (bb3_min b) (r3_origin r)) -> VFinite3 (p3_sub (bb3_max b) (r3_origin r)) -> VFinite3 (r3_direction r) ->
  bb3_intersect_ray b r = Some (s, e) -> Finite e -> Le s t -> Le t e ->
  forall d, Finite (coord3 (r3_at r t) d) ->
  let o := real_of (coord3 (r3_origin r) d) in let v := real_of (vcoord3 (r3_direction r) d) in
  let w := fun face => 3 * unit_roundoff A * Rabs (real_of face - o) + min_subnormal A * Rabs v + (((1 + unit_roundoff A) ^ 2 - 1) * (Rabs o + Rabs v * Rabs (real_of t)) + min_subnormal A) in
  real_of (coord3 (bb3_min b) d) - w (coord3 (bb3_min b) d) <= real_of (coord3 (r3_at r t) d) <= real_of (coord3 (bb3_max b) d) + w (coord3 (bb3_max b) d).
Proof. exact C86_computed_points_near_box_3d_pf. Qed.
Print Assumptions C86_computed_points_near_box_3d.
(* a ray off the axes that crosses a box, in f64: a finite range that does not start at 0, and finite computed points *)
Example C86_example : let b := boxA3 in let r := mkRay3 (mkPoint3 (nd64 3 0) (nd64 1 (-1)) (d64 1 (-2))) (mkVector3 (d64 3 0) (d64 1 (-3)) (d64 1 (-70))) in
  Ordered3 b /\ VFinite3 (p3_sub (bb3_min b) (r3_origin r)) /\ VFinite3 (p3_sub (bb3_max b) (r3_origin r)) /\ VFinite3 (r3_direction r) /\
  match bb3_intersect_ray b r with Some (s, e) => slt szero s && slt s e && slt e sinf | None => false end = true.
Proof. cbv zeta. split; [intros []; vm_compute; reflexivity|]. split; [intros []; vm_compute; reflexivity|]. split; [intros []; vm_compute; reflexivity|]. split; [intros []; vm_compute; reflexivity|]. vm_compute. reflexivity. Qed.
