(** Theorems: C97 (differences of nearby points are exact; the way back).
    [A] ranges over f32 and f64 on every platform, and exact reals extended with infinities and NaN. *)
From Coq Require Import Bool NArith ZArith Reals List Lia Lra.
From Flocq Require Import Core.Defs IEEE754.BinarySingleNaN.
From Verif Require Import Scalar Types Vector2 Vector3 Point2 Point3 Ray BoundingBox2 BoundingBox3 Float XReal Arith SpecOrder SpecFloat SpecErr SpecReal SpecDiff ExVals FloatDiff.
Local Open Scope R_scope.
(** * C97: between nearby points (every coordinate of the same sign and within a factor 2) the difference is exact, and adding it leads back *)
Theorem C97_nearby_difference_2d : forall (A : arith) (p q : Point2 (num A)), Finite2 p -> Finite2 q -> PNearby2 p q ->
  (forall d, Finite (vcoord2 (p2_sub q p) d) /\ real_of (vcoord2 (p2_sub q p) d) = real_of (coord2 q d) - real_of (coord2 p d)) /\
  PEq2 (p2_add p (p2_sub q p)) q /\ PEq2 (p2_sub_v q (p2_sub q p)) p.
Proof. exact C97_nearby_difference_2d_pf. Qed.
Print Assumptions C97_nearby_difference_2d.
Theorem C97_nearby_difference_3d : forall (A : arith) (p q : Point3 (num A)), Finite3 p -> Finite3 q -> PNearby3 p q ->
  (forall d, Finite (vcoord3 (p3_sub q p) d) /\ real_of (vcoord3 (p3_sub q p) d) = real_of (coord3 q d) - real_of (coord3 p d)) /\
  PEq3 (p3_add p (p3_sub q p)) q /\ PEq3 (p3_sub_v q (p3_sub q p)) p.
Proof. exact C97_nearby_difference_3d_pf. Qed.
Print Assumptions C97_nearby_difference_3d.
(** * so the ray from p towards q passes at t = 1 exactly through q *)
Theorem C97_ray_through_2d : forall (A : arith) (p q : Point2 (num A)), Finite2 p -> Finite2 q -> PNearby2 p q -> PEq2 (r2_at (r2_new p (p2_sub q p)) sone) q.
Proof. exact C97_ray_through_2d_pf. Qed.
Print Assumptions C97_ray_through_2d.
Theorem C97_ray_through_3d : forall (A : arith) (p q : Point3 (num A)), Finite3 p -> Finite3 q -> PNearby3 p q -> PEq3 (r3_at (r3_new p (p3_sub q p)) sone) q.
Proof. exact C97_ray_through_3d_pf. Qed.
Print Assumptions C97_ray_through_3d.
(** * so distance is computed from the exact differences *)
Theorem C97_nearby_distance_2d : forall (A : arith) (p q : Point2 (num A)), Finite2 p -> Finite2 q -> PNearby2 p q -> let w := p2_sub q p in
  Finite (v2_dot w w) -> min_subnormal A <= unit_roundoff A * real_of (v2_dot w w) ->
  Rabs (real_of (p2_distance p q) - Rdist2 (RP2 q) (RP2 p)) <= 5 * unit_roundoff A * Rdist2 (RP2 q) (RP2 p).
Proof. exact C97_nearby_distance_2d_pf. Qed.
Print Assumptions C97_nearby_distance_2d.
Theorem C97_nearby_distance_3d : forall (A : arith) (p q : Point3 (num A)), Finite3 p -> Finite3 q -> PNearby3 p q -> let w := p3_sub q p in
  Finite (v3_dot w w) -> min_subnormal A <= unit_roundoff A * real_of (v3_dot w w) ->
  Rabs (real_of (p3_distance p q) - Rdist3 (RP3 q) (RP3 p)) <= 5 * unit_roundoff A * Rdist3 (RP3 q) (RP3 p).
Proof. exact C97_nearby_distance_3d_pf. Qed.
Print Assumptions C97_nearby_distance_3d.
(** * without the assumption: the sign of a difference is always right, and it vanishes only for equal coordinates *)
Theorem C97_difference_sign_2d : forall (A : arith) (p q : Point2 (num A)) (d : Dimension2), Finite2 p -> Finite2 q ->
  (Lt szero (vcoord2 (p2_sub q p) d) <-> Lt (coord2 p d) (coord2 q d)) /\ (Lt (vcoord2 (p2_sub q p) d) szero <-> Lt (coord2 q d) (coord2 p d)) /\
  (Eqs (vcoord2 (p2_sub q p) d) szero <-> Eqs (coord2 q d) (coord2 p d)).
Proof. exact C97_difference_sign_2d_pf. Qed.
Print Assumptions C97_difference_sign_2d.
Theorem C97_difference_sign_3d : forall (A : arith) (p q : Point3 (num A)) (d : Dimension3), Finite3 p -> Finite3 q ->
  (Lt szero (vcoord3 (p3_sub q p) d) <-> Lt (coord3 p d) (coord3 q d)) /\ (Lt (vcoord3 (p3_sub q p) d) szero <-> Lt (coord3 q d) (coord3 p d)) /\
  (Eqs (vcoord3 (p3_sub q p) d) szero <-> Eqs (coord3 q d) (coord3 p d)).
Proof. exact C97_difference_sign_3d_pf. Qed.
Print Assumptions C97_difference_sign_3d.
(** * without the assumption: how far p + (q - p) can be from q *)
Theorem C97_way_back_error_2d : forall (A : arith) (p q : Point2 (num A)) (d : Dimension2), Finite (coord2 (p2_add p (p2_sub q p)) d) ->
  let u := unit_roundoff A in let x := real_of (coord2 q d) in let y := real_of (coord2 p d) in
  Rabs (real_of (coord2 (p2_add p (p2_sub q p)) d) - x) <= u * (Rabs x + (1 + u) * Rabs (x - y)).
Proof. exact C97_way_back_error_2d_pf. Qed.
Print Assumptions C97_way_back_error_2d.
Theorem C97_way_back_error_3d : forall (A : arith) (p q : Point3 (num A)) (d : Dimension3), Finite (coord3 (p3_add p (p3_sub q p)) d) ->
  let u := unit_roundoff A in let x := real_of (coord3 q d) in let y := real_of (coord3 p d) in
  Rabs (real_of (coord3 (p3_add p (p3_sub q p)) d) - x) <= u * (Rabs x + (1 + u) * Rabs (x - y)).
Proof. exact C97_way_back_error_3d_pf. Qed.
Print Assumptions C97_way_back_error_3d.
(* without the assumption the way back can miss: from 1 to 2^-60 and back gives 0 *)
Example C97_far_points_refuted :
  let p := mkPoint2 (d64 1 0) (d64 1 0) in let q := mkPoint2 (d64 1 (-60)) (d64 1 0) in
  seq (p2x (p2_add p (p2_sub q p))) (p2x q) = false /\ seq (p2x (p2_add p (p2_sub q p))) szero = true /\ seq (p2x q) szero = false.
Proof. repeat split; vm_compute; reflexivity. Qed.
(* the assumption holds for points at different places with coordinates of both signs *)
Example C97_nearby_case : PNearby2 (mkPoint2 (d64 1 0) (nd64 7 0)) (mkPoint2 (d64 3 (-1)) (nd64 5 0)).
Proof.
  assert (V1 : real_of (d64 1 0 : num A64) = 1) by (cbn -[Rinv IZR]; unfold Defs.F2R; cbn; lra). assert (V2 : real_of (nd64 7 0 : num A64) = -7) by (cbn -[Rinv IZR]; unfold Defs.F2R; cbn; lra).
  assert (V3 : real_of (d64 3 (-1) : num A64) = 3 / 2) by (cbn -[Rinv IZR]; unfold Defs.F2R; cbn; lra). assert (V4 : real_of (nd64 5 0 : num A64) = -5) by (cbn -[Rinv IZR]; unfold Defs.F2R; cbn; lra).
  intros []; unfold Nearby; cbn [coord2 p2x p2y]; rewrite ?V1, ?V2, ?V3, ?V4; [left | right]; lra.
Qed.
