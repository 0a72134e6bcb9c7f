(** Theorems: C69 (ray evaluation is monotone), C70 (length and distance are monotone).
    [A] ranges over f32 and f64 on every platform, and exact reals. *)
From Coq Require Import Bool NArith ZArith Reals List Lra Lia.
From Verif Require Import Scalar Types Vector2 Vector3 Point2 Point3 Ray BoundingBox2 BoundingBox3 Transform2 Transform3 Float
  XReal Arith SpecOrder SpecFloat ExVals FloatMono.
Import ListNotations.
(** ** C69: ray evaluation is monotone, so the parameters at which a ray is inside a box form an interval *)
Theorem C69_ray_at_monotone_2d : forall (A : arith) (r : Ray2 (num A)) (s t : num A), Finite2 (r2_origin r) -> VFinite2 (r2_direction r) -> Finite s -> Finite t -> Le s t ->
  forall d, (Le szero (vcoord2 (r2_direction r) d) -> Le (coord2 (r2_at r s) d) (coord2 (r2_at r t) d)) /\
            (Le (vcoord2 (r2_direction r) d) szero -> Le (coord2 (r2_at r t) d) (coord2 (r2_at r s) d)).
Proof. exact C69_ray_at_monotone_2d_pf. Qed.
Print Assumptions C69_ray_at_monotone_2d.
Theorem C69_ray_at_monotone_3d : forall (A : arith) (r : Ray3 (num A)) (s t : num A), Finite3 (r3_origin r) -> VFinite3 (r3_direction r) -> Finite s -> Finite t -> Le s t ->
  forall d, (Le szero (vcoord3 (r3_direction r) d) -> Le (coord3 (r3_at r s) d) (coord3 (r3_at r t) d)) /\
            (Le (vcoord3 (r3_direction r) d) szero -> Le (coord3 (r3_at r t) d) (coord3 (r3_at r s) d)).
Proof. exact C69_ray_at_monotone_3d_pf. Qed.
Print Assumptions C69_ray_at_monotone_3d.
Theorem C69_inside_is_an_interval_2d : forall (A : arith) (b : BoundingBox2 (num A)) (r : Ray2 (num A)) (s t u : num A), Finite2 (r2_origin r) -> VFinite2 (r2_direction r) ->
  Finite s -> Finite t -> Finite u -> Le s t -> Le t u ->
  bb2_is_inside b (r2_at r s) = true -> bb2_is_inside b (r2_at r u) = true -> bb2_is_inside b (r2_at r t) = true.
Proof. exact C69_inside_is_an_interval_2d_pf. Qed.
Print Assumptions C69_inside_is_an_interval_2d.
Theorem C69_inside_is_an_interval_3d : forall (A : arith) (b : BoundingBox3 (num A)) (r : Ray3 (num A)) (s t u : num A), Finite3 (r3_origin r) -> VFinite3 (r3_direction r) ->
  Finite s -> Finite t -> Finite u -> Le s t -> Le t u ->
  bb3_is_inside b (r3_at r s) = true -> bb3_is_inside b (r3_at r u) = true -> bb3_is_inside b (r3_at r t) = true.
Proof. exact C69_inside_is_an_interval_3d_pf. Qed.
Print Assumptions C69_inside_is_an_interval_3d.
(** ** C70: length and distance never decrease when the components grow *)
Theorem C70_length_monotone_2d : forall (A : arith) (v w : Vector2 (num A)), (forall d, Le (sabs (vcoord2 v d)) (sabs (vcoord2 w d))) ->
  Le (v2_length v) (v2_length w) /\ v2_is_shorter_than w v = false /\ v2_is_longer_than v w = false.
Proof. exact C70_length_monotone_2d_pf. Qed.
Print Assumptions C70_length_monotone_2d.
Theorem C70_length_monotone_3d : forall (A : arith) (v w : Vector3 (num A)), (forall d, Le (sabs (vcoord3 v d)) (sabs (vcoord3 w d))) ->
  Le (v3_length v) (v3_length w) /\ v3_is_shorter_than w v = false /\ v3_is_longer_than v w = false.
Proof. exact C70_length_monotone_3d_pf. Qed.
Print Assumptions C70_length_monotone_3d.
Theorem C70_distance_monotone_2d : forall (A : arith) (p q r : Point2 (num A)), Finite2 p ->
  (forall d, Le (coord2 p d) (coord2 q d) /\ Le (coord2 q d) (coord2 r d) \/ Le (coord2 r d) (coord2 q d) /\ Le (coord2 q d) (coord2 p d)) ->
  Le (p2_distance p q) (p2_distance p r) /\ p2_is_closer_to p r q = false /\ p2_is_farther_from p q r = false.
Proof. exact C70_distance_monotone_2d_pf. Qed.
Print Assumptions C70_distance_monotone_2d.
Theorem C70_distance_monotone_3d : forall (A : arith) (p q r : Point3 (num A)), Finite3 p ->
  (forall d, Le (coord3 p d) (coord3 q d) /\ Le (coord3 q d) (coord3 r d) \/ Le (coord3 r d) (coord3 q d) /\ Le (coord3 q d) (coord3 p d)) ->
  Le (p3_distance p q) (p3_distance p r) /\ p3_is_closer_to p r q = false /\ p3_is_farther_from p q r = false.
Proof. exact C70_distance_monotone_3d_pf. Qed.
Print Assumptions C70_distance_monotone_3d.
Theorem C70_farthest_point_is_a_corner_2d : forall (A : arith) (prof : profile) (b : BoundingBox2 (num A)) (p q : Point2 (num A)), Finite2 p -> bb2_is_inside b q = true ->
  exists i c, (i < 4)%N /\ bb2_corner prof b i = Ret c /\ Le (p2_distance p q) (p2_distance p c) /\ p2_is_closer_to p c q = false.
Proof. exact C70_farthest_point_is_a_corner_2d_pf. Qed.
Print Assumptions C70_farthest_point_is_a_corner_2d.
Theorem C70_farthest_point_is_a_corner_3d : forall (A : arith) (prof : profile) (b : BoundingBox3 (num A)) (p q : Point3 (num A)), Finite3 p -> bb3_is_inside b q = true ->
  exists i c, (i < 8)%N /\ bb3_corner prof b i = Ret c /\ Le (p3_distance p q) (p3_distance p c) /\ p3_is_closer_to p c q = false.
Proof. exact C70_farthest_point_is_a_corner_3d_pf. Qed.
Print Assumptions C70_farthest_point_is_a_corner_3d.
(** Concrete cases meeting the hypotheses. *)
Example C69_example_2d : let r : Ray2 (num A64) := mkRay2 (mkPoint2 (d64 1 0) (d64 1 (-1))) (mkVector2 (nd64 1 (-2)) (d64 3 0)) in
  Finite2 (r2_origin r) /\ VFinite2 (r2_direction r) /\ Finite (d64 1 (-3)) /\ Le (d64 0 0) (d64 1 (-3)) /\ Le (d64 1 (-3)) (d64 1 (-2)) /\
  bb2_is_inside boxA2 (r2_at r (d64 0 0)) = true /\ bb2_is_inside boxA2 (r2_at r (d64 1 (-2))) = true.
Proof. cbv zeta. repeat apply conj; try (intros []); vm_compute; reflexivity. Qed.
Example C70_example_3d : let p := mkPoint3 (d64 1 0) (d64 5 0) (nd64 1 (-1)) : Point3 (num A64) in let q := mkPoint3 (d64 2 0) (d64 4 0) (nd64 1 (-1)) in
  let r := mkPoint3 (d64 3 0) (d64 1 (-1)) (d64 7 0) in
  Finite3 p /\ (forall d, Le (coord3 p d) (coord3 q d) /\ Le (coord3 q d) (coord3 r d) \/ Le (coord3 r d) (coord3 q d) /\ Le (coord3 q d) (coord3 p d)) /\
  bb3_is_inside boxA3 (mkPoint3 (d64 1 0) (d64 1 0) (d64 1 (-1))) = true.
Proof.
  cbv zeta. split; [intros []; vm_compute; reflexivity|]. split; [intros []; [left | right | left]; split; vm_compute; reflexivity | vm_compute; reflexivity].
Qed.
