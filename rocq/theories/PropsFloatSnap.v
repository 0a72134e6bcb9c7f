(** Theorems: C110 (snapping boxes to the integer grid).
    [A] ranges over f32 and f64 on every platform, and exact reals extended with infinities and NaN. *)
From Coq Require Import Bool NArith ZArith Reals List Lia.
From Verif Require Import Scalar Types Vector2 Vector3 Point2 Point3 Ray BoundingBox2 BoundingBox3 Float XReal Arith SpecOrder SpecFloat SpecErr SpecSnap ExVals FloatSnap.
Local Open Scope R_scope.
(** the snapped box has integral corners and contains the box *)
Theorem C110_snap_contains_2d : forall (A : arith) (b : BoundingBox2 (num A)), Ordered2 b -> Ordered2 (snap2 b) /\ IntBox2 (snap2 b) /\ Incl2 b (snap2 b).
Proof. exact C110_snap_contains_2d_pf. Qed.
Print Assumptions C110_snap_contains_2d.
Theorem C110_snap_contains_3d : forall (A : arith) (b : BoundingBox3 (num A)), Ordered3 b -> Ordered3 (snap3 b) /\ IntBox3 (snap3 b) /\ Incl3 b (snap3 b).
Proof. exact C110_snap_contains_3d_pf. Qed.
Print Assumptions C110_snap_contains_3d.
(** and is inside every box with integral corners that contains it *)
Theorem C110_snap_is_smallest_2d : forall (A : arith) (b c : BoundingBox2 (num A)), Ordered2 b -> IntBox2 c -> Incl2 b c -> Incl2 (snap2 b) c.
Proof. exact C110_snap_is_smallest_2d_pf. Qed.
Print Assumptions C110_snap_is_smallest_2d.
Theorem C110_snap_is_smallest_3d : forall (A : arith) (b c : BoundingBox3 (num A)), Ordered3 b -> IntBox3 c -> Incl3 b c -> Incl3 (snap3 b) c.
Proof. exact C110_snap_is_smallest_3d_pf. Qed.
Print Assumptions C110_snap_is_smallest_3d.
(** a point of the box rounded by floor, ceil, round or trunc lies in the snapped box *)
Theorem C110_rounded_points_2d : forall (A : arith) (b : BoundingBox2 (num A)) (p : Point2 (num A)), bb2_is_inside b p = true ->
  bb2_is_inside (snap2 b) (p2_floor p) = true /\ bb2_is_inside (snap2 b) (p2_ceil p) = true /\ bb2_is_inside (snap2 b) (p2_round p) = true /\ bb2_is_inside (snap2 b) (p2_trunc p) = true.
Proof. exact C110_rounded_points_2d_pf. Qed.
Print Assumptions C110_rounded_points_2d.
Theorem C110_rounded_points_3d : forall (A : arith) (b : BoundingBox3 (num A)) (p : Point3 (num A)), bb3_is_inside b p = true ->
  bb3_is_inside (snap3 b) (p3_floor p) = true /\ bb3_is_inside (snap3 b) (p3_ceil p) = true /\ bb3_is_inside (snap3 b) (p3_round p) = true /\ bb3_is_inside (snap3 b) (p3_trunc p) = true.
Proof. exact C110_rounded_points_3d_pf. Qed.
Print Assumptions C110_rounded_points_3d.
(** snapping again changes nothing, snapping is monotone and commutes with union *)
Theorem C110_snap_algebra_2d : forall (A : arith) (a b : BoundingBox2 (num A)), Ordered2 a -> Ordered2 b ->
  BEq2 (snap2 (snap2 a)) (snap2 a) /\ (Incl2 a b -> Incl2 (snap2 a) (snap2 b)) /\ BEq2 (snap2 (bb2_union a b)) (bb2_union (snap2 a) (snap2 b)) /\
  (bb2_overlaps a b = true -> bb2_overlaps (snap2 a) (snap2 b) = true).
Proof. exact C110_snap_algebra_2d_pf. Qed.
Print Assumptions C110_snap_algebra_2d.
Theorem C110_snap_algebra_3d : forall (A : arith) (a b : BoundingBox3 (num A)), Ordered3 a -> Ordered3 b ->
  BEq3 (snap3 (snap3 a)) (snap3 a) /\ (Incl3 a b -> Incl3 (snap3 a) (snap3 b)) /\ BEq3 (snap3 (bb3_union a b)) (bb3_union (snap3 a) (snap3 b)) /\
  (bb3_overlaps a b = true -> bb3_overlaps (snap3 a) (snap3 b) = true).
Proof. exact C110_snap_algebra_3d_pf. Qed.
Print Assumptions C110_snap_algebra_3d.
(** each face moves by less than 1 *)
Theorem C110_snap_distance_2d : forall (A : arith) (b : BoundingBox2 (num A)) (d : Dimension2), Ordered2 b ->
  let lo := coord2 (bb2_min b) d in let hi := coord2 (bb2_max b) d in let lo' := coord2 (bb2_min (snap2 b)) d in let hi' := coord2 (bb2_max (snap2 b)) d in
  (Finite lo -> Finite lo' /\ real_of lo - 1 < real_of lo' <= real_of lo) /\ (Finite hi -> Finite hi' /\ real_of hi <= real_of hi' < real_of hi + 1).
Proof. exact C110_snap_distance_2d_pf. Qed.
Print Assumptions C110_snap_distance_2d.
Theorem C110_snap_distance_3d : forall (A : arith) (b : BoundingBox3 (num A)) (d : Dimension3), Ordered3 b ->
  let lo := coord3 (bb3_min b) d in let hi := coord3 (bb3_max b) d in let lo' := coord3 (bb3_min (snap3 b)) d in let hi' := coord3 (bb3_max (snap3 b)) d in
  (Finite lo -> Finite lo' /\ real_of lo - 1 < real_of lo' <= real_of lo) /\ (Finite hi -> Finite hi' /\ real_of hi <= real_of hi' < real_of hi + 1).
Proof. exact C110_snap_distance_3d_pf. Qed.
Print Assumptions C110_snap_distance_3d.
(** the cell of a point: new(p.floor(), p.ceil()) contains p, its real extents are 0 (integer coordinate) or 1, and it is inside every box with integral corners that contains p *)
Theorem C110_cell_2d : forall (A : arith) (p : Point2 (num A)), Finite2 p -> let b := bb2_new (p2_floor p) (p2_ceil p) in
  bb2_is_inside b p = true /\ (forall c : BoundingBox2 (num A), IntBox2 c -> bb2_is_inside c p = true -> Incl2 b c) /\
  forall d, let e := real_of (coord2 (bb2_max b) d) - real_of (coord2 (bb2_min b) d) in (Integral (coord2 p d) -> e = 0) /\ (~ Integral (coord2 p d) -> e = 1).
Proof. exact C110_cell_2d_pf. Qed.
Print Assumptions C110_cell_2d.
Theorem C110_cell_3d : forall (A : arith) (p : Point3 (num A)), Finite3 p -> let b := bb3_new (p3_floor p) (p3_ceil p) in
  bb3_is_inside b p = true /\ (forall c : BoundingBox3 (num A), IntBox3 c -> bb3_is_inside c p = true -> Incl3 b c) /\
  forall d, let e := real_of (coord3 (bb3_max b) d) - real_of (coord3 (bb3_min b) d) in (Integral (coord3 p d) -> e = 0) /\ (~ Integral (coord3 p d) -> e = 1).
Proof. exact C110_cell_3d_pf. Qed.
Print Assumptions C110_cell_3d.
(* the hypotheses are met: a box and its snapped box *)
Example C110_example : let b := mkBB2 (mkPoint2 (nd64 3 (-1)) (d64 1 (-2))) (mkPoint2 (d64 5 (-1)) (d64 7 0)) : BoundingBox2 (num A64) in
  Ordered2 b /\ bb2_is_inside b (mkPoint2 (d64 5 (-2)) (d64 5 (-1))) = true /\ BEq2 (snap2 b) (mkBB2 (mkPoint2 (nd64 2 0) (d64 0 0)) (mkPoint2 (d64 3 0) (d64 7 0))).
Proof. cbv zeta. split; [intros []; vm_compute; reflexivity|]. split; [vm_compute; reflexivity|]. split; intros []; vm_compute; reflexivity. Qed.
