(** Theorems: C72 (accuracy of the ray-box test in floating point).  [A] ranges over f32 and f64 on every platform, and exact reals. *)
From Coq Require Import Bool NArith ZArith Reals List Lra Lia.
From Verif Require Import Scalar Types Vector2 Vector3 Point2 Point3 Ray BoundingBox2 BoundingBox3 Float
  XReal Arith SpecOrder SpecFloat SpecReal SpecErr SpecRay ExVals FloatRayErr.
Import ListNotations.
Local Open Scope R_scope.
(** ** C72: every parameter at which the exact ray is inside the box lies in the returned range, up to rounding *)
Theorem C72_range_covers_hits_2d : forall (A : arith) (b : BoundingBox2 (num A)) (r : Ray2 (num A)) (s e : num A), Ordered2 b ->
  VFinite2 (p2_sub (bb2_min b) (r2_origin r)) -> VFinite2 (p2_sub (bb2_max b) (r2_origin r)) -> VFinite2 (r2_direction r) ->
  bb2_intersect_ray b r = Some (s, e) -> forall t, 0 <= t -> exact_hit2 b r t ->
  (Finite s -> real_of s <= t + slack A t) /\ (Finite e -> t - slack A t <= real_of e).
Proof. exact C72_range_covers_hits_2d_pf. Qed.
Print Assumptions C72_range_covers_hits_2d.
Theorem C72_range_covers_hits_3d : forall (A : arith) (b : BoundingBox3 (num A)) (r : Ray3 (num A)) (s e : num A), Ordered3 b ->
  VFinite3 (p3_sub (bb3_min b) (r3_origin r)) -> VFinite3 (p3_sub (bb3_max b) (r3_origin r)) -> VFinite3 (r3_direction r) ->
  bb3_intersect_ray b r = Some (s, e) -> forall t, 0 <= t -> exact_hit3 b r t ->
  (Finite s -> real_of s <= t + slack A t) /\ (Finite e -> t - slack A t <= real_of e).
Proof. exact C72_range_covers_hits_3d_pf. Qed.
Print Assumptions C72_range_covers_hits_3d.
(** ** and well inside the returned range the exact ray is inside the box *)
Theorem C72_range_interior_2d : forall (A : arith) (b : BoundingBox2 (num A)) (r : Ray2 (num A)) (s e : num A), Ordered2 b ->
  VFinite2 (p2_sub (bb2_min b) (r2_origin r)) -> VFinite2 (p2_sub (bb2_max b) (r2_origin r)) -> VFinite2 (r2_direction r) ->
  bb2_intersect_ray b r = Some (s, e) -> Finite e -> forall t, real_of s <= t - slack A t -> t + slack A t <= real_of e -> exact_hit2 b r t.
Proof. exact C72_range_interior_2d_pf. Qed.
Print Assumptions C72_range_interior_2d.
Theorem C72_range_interior_3d : forall (A : arith) (b : BoundingBox3 (num A)) (r : Ray3 (num A)) (s e : num A), Ordered3 b ->
  VFinite3 (p3_sub (bb3_min b) (r3_origin r)) -> VFinite3 (p3_sub (bb3_max b) (r3_origin r)) -> VFinite3 (r3_direction r) ->
  bb3_intersect_ray b r = Some (s, e) -> Finite e -> forall t, real_of s <= t - slack A t -> t + slack A t <= real_of e -> exact_hit3 b r t.
Proof. exact C72_range_interior_3d_pf. Qed.
Print Assumptions C72_range_interior_3d.
(** ** at every parameter of the returned range the exact ray is inside the box with each face moved out by 3u*|face - origin| + min_subnormal*|direction| *)
Theorem C72_range_near_box_2d : forall (A : arith) (b : BoundingBox2 (num A)) (r : Ray2 (num A)) (s e : num A), Ordered2 b ->
  VFinite2 (p2_sub (bb2_min b) (r2_origin r)) -> VFinite2 (p2_sub (bb2_max b) (r2_origin r)) -> VFinite2 (r2_direction r) ->
  bb2_intersect_ray b r = Some (s, e) -> Finite e -> forall t, real_of s <= t <= real_of e ->
  exact_hit_within2 (fun face d => 3 * unit_roundoff A * Rabs (real_of face - real_of (coord2 (r2_origin r) d)) + min_subnormal A * Rabs (real_of (vcoord2 (r2_direction r) d))) b r t.
Proof. exact C72_range_near_box_2d_pf. Qed.
Print Assumptions C72_range_near_box_2d.
Theorem C72_range_near_box_3d : forall (A : arith) (b : BoundingBox3 (num A)) (r : Ray3 (num A)) (s e : num A), Ordered3 b ->
  VFinite3 (p3_sub (bb3_min b) (r3_origin r)) -> VFinite3 (p3_sub (bb3_max b) (r3_origin r)) -> VFinite3 (r3_direction r) ->
  bb3_intersect_ray b r = Some (s, e) -> Finite e -> forall t, real_of s <= t <= real_of e ->
  exact_hit_within3 (fun face d => 3 * unit_roundoff A * Rabs (real_of face - real_of (coord3 (r3_origin r) d)) + min_subnormal A * Rabs (real_of (vcoord3 (r3_direction r) d))) b r t.
Proof. exact C72_range_near_box_3d_pf. Qed.
Print Assumptions C72_range_near_box_3d.
(** ** a miss means that the exact ray meets the box, if at all, only on an interval as short as rounding error (in exact arithmetic: not at all) *)
Theorem C72_miss_is_thin_2d : forall (A : arith) (b : BoundingBox2 (num A)) (r : Ray2 (num A)), Ordered2 b ->
  VFinite2 (p2_sub (bb2_min b) (r2_origin r)) -> VFinite2 (p2_sub (bb2_max b) (r2_origin r)) -> VFinite2 (r2_direction r) ->
  (forall d, Eqs (vcoord2 (r2_direction r) d) szero ->
     Eqs (coord2 (r2_origin r) d) (coord2 (bb2_min b) d) \/ Eqs (coord2 (r2_origin r) d) (coord2 (bb2_max b) d) -> Eqs (coord2 (bb2_min b) d) (coord2 (bb2_max b) d)) ->
  bb2_intersect_ray b r = None -> forall t1 t2, 0 <= t1 -> exact_hit2 b r t1 -> exact_hit2 b r t2 ->
  t2 - slack A t2 < t1 + slack A t1.
Proof. exact C72_miss_is_thin_2d_pf. Qed.
Print Assumptions C72_miss_is_thin_2d.
Theorem C72_miss_is_thin_3d : forall (A : arith) (b : BoundingBox3 (num A)) (r : Ray3 (num A)), Ordered3 b ->
  VFinite3 (p3_sub (bb3_min b) (r3_origin r)) -> VFinite3 (p3_sub (bb3_max b) (r3_origin r)) -> VFinite3 (r3_direction r) ->
  (forall d, Eqs (vcoord3 (r3_direction r) d) szero ->
     Eqs (coord3 (r3_origin r) d) (coord3 (bb3_min b) d) \/ Eqs (coord3 (r3_origin r) d) (coord3 (bb3_max b) d) -> Eqs (coord3 (bb3_min b) d) (coord3 (bb3_max b) d)) ->
  bb3_intersect_ray b r = None -> forall t1 t2, 0 <= t1 -> exact_hit3 b r t1 -> exact_hit3 b r t2 ->
  t2 - slack A t2 < t1 + slack A t1.
Proof. exact C72_miss_is_thin_3d_pf. Qed.
Print Assumptions C72_miss_is_thin_3d.
(** ** the entry point computed as ray.at(start) need not be inside the box *)
Theorem C72_entry_point_inside_refuted_2d : let b : BoundingBox2 (num A64) := mkBB2 (mkPoint2 (d64 1 0) (nd64 1 0)) (mkPoint2 (d64 2 0) (d64 1 0)) in
  let r : Ray2 (num A64) := mkRay2 (mkPoint2 (d64 0 0) (d64 0 0)) (mkVector2 (d64 49 0) (d64 0 0)) in
  Ordered2 b /\ exists s e, bb2_intersect_ray b r = Some (s, e) /\ Finite s /\ Finite e /\ bb2_is_inside b (r2_at r s) = false.
Proof. exact C72_entry_point_inside_refuted_2d_pf. Qed.
Print Assumptions C72_entry_point_inside_refuted_2d.
(** ** a false miss: the exact ray touches the box (at t = 7), but the result is None *)
Theorem C72_touching_ray_hits_refuted_2d : let b : BoundingBox2 (num A64) := mkBB2 (mkPoint2 (d64 7 0) (d64 0 0)) (mkPoint2 (d64 8 0) (d64 1 55)) in
  let r : Ray2 (num A64) := mkRay2 (mkPoint2 (d64 0 0) (nd64 19 0)) (mkVector2 (d64 1 0) (d64 5146971002709141 0)) in
  Ordered2 b /\ VFinite2 (p2_sub (bb2_min b) (r2_origin r)) /\ VFinite2 (p2_sub (bb2_max b) (r2_origin r)) /\ VFinite2 (r2_direction r) /\
  exact_hit2 b r 7 /\ bb2_intersect_ray b r = None.
Proof. exact C72_touching_ray_hits_refuted_2d_pf. Qed.
Print Assumptions C72_touching_ray_hits_refuted_2d.
(* a ray off the axes that crosses a box (a finite range), and one that misses it *)
Example C72_example : let b := boxA3 in let r := mkRay3 (mkPoint3 (nd64 3 0) (nd64 1 (-1)) (d64 1 (-2))) (mkVector3 (d64 3 0) (d64 1 (-3)) (d64 1 (-70))) in
  Ordered3 b /\ VFinite3 (p3_sub (bb3_min b) (r3_origin r)) /\ VFinite3 (p3_sub (bb3_max b) (r3_origin r)) /\ VFinite3 (r3_direction r) /\
  match bb3_intersect_ray b r with Some (s, e) => slt s e && negb (seq e sinf) | None => false end = true /\
  is_some (bb3_intersect_ray b (mkRay3 (r3_origin r) (v3_neg (r3_direction r)))) = false.
Proof. cbv zeta. repeat apply conj; try (intros []); vm_compute; reflexivity. Qed.
(* in exact arithmetic the slack is 0: C72 then says that the range is exact *)
Example C72_exact_slack : forall t, slack EXACT t = 0.
Proof. intros t. unfold slack. cbn. ring. Qed.
