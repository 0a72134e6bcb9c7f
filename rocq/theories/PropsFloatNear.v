(** Theorems: C103 (the nearest point of a box), C104 (nearest-neighbour search).
    [A] ranges over f32 and f64 on every platform, and exact reals extended with infinities and NaN. *)
From Coq Require Import Bool NArith ZArith Reals List Lia.
From Verif Require Import Scalar Types Vector2 Vector3 Point2 Point3 Ray BoundingBox2 BoundingBox3 Float XReal Arith SpecOrder SpecFloat SpecReal SpecNear ExVals FloatNear.
Import ListNotations.
(** clamping any point (NaN coordinates included) gives a point of the box *)
Theorem C103_clamp_inside_2d : forall (A : arith) (b : BoundingBox2 (num A)) (p : Point2 (num A)), Ordered2 b -> bb2_is_inside b (clamp2 b p) = true.
Proof. exact C103_clamp_inside_2d_pf. Qed.
Print Assumptions C103_clamp_inside_2d.
Theorem C103_clamp_inside_3d : forall (A : arith) (b : BoundingBox3 (num A)) (p : Point3 (num A)), Ordered3 b -> bb3_is_inside b (clamp3 b p) = true.
Proof. exact C103_clamp_inside_3d_pf. Qed.
Print Assumptions C103_clamp_inside_3d.
(** exactly the points of the box are left alone *)
Theorem C103_clamp_fixes_2d : forall (A : arith) (b : BoundingBox2 (num A)) (p : Point2 (num A)), Ordered2 b -> (PEq2 (clamp2 b p) p <-> bb2_is_inside b p = true).
Proof. exact C103_clamp_fixes_2d_pf. Qed.
Print Assumptions C103_clamp_fixes_2d.
Theorem C103_clamp_fixes_3d : forall (A : arith) (b : BoundingBox3 (num A)) (p : Point3 (num A)), Ordered3 b -> (PEq3 (clamp3 b p) p <-> bb3_is_inside b p = true).
Proof. exact C103_clamp_fixes_3d_pf. Qed.
Print Assumptions C103_clamp_fixes_3d.
(** no point of the box is nearer, in the computed distances and comparisons *)
Theorem C103_clamp_is_nearest_2d : forall (A : arith) (b : BoundingBox2 (num A)) (p q : Point2 (num A)), Finite2 p -> bb2_is_inside b q = true ->
  Le (p2_distance p (clamp2 b p)) (p2_distance p q) /\ p2_is_closer_to p q (clamp2 b p) = false /\ p2_is_farther_from p (clamp2 b p) q = false.
Proof. exact C103_clamp_is_nearest_2d_pf. Qed.
Print Assumptions C103_clamp_is_nearest_2d.
Theorem C103_clamp_is_nearest_3d : forall (A : arith) (b : BoundingBox3 (num A)) (p q : Point3 (num A)), Finite3 p -> bb3_is_inside b q = true ->
  Le (p3_distance p (clamp3 b p)) (p3_distance p q) /\ p3_is_closer_to p q (clamp3 b p) = false /\ p3_is_farther_from p (clamp3 b p) q = false.
Proof. exact C103_clamp_is_nearest_3d_pf. Qed.
Print Assumptions C103_clamp_is_nearest_3d.
(** exact arithmetic: it is the only nearest point *)
Theorem C103_nearest_is_unique_2d : forall (b : BoundingBox2 R) (p q : Point2 R), bb2_is_inside (XB2 b) (XP2 q) = true ->
  p2_distance (XP2 p) (XP2 q) = p2_distance (XP2 p) (clamp2 (XB2 b) (XP2 p)) -> clamp2 (XB2 b) (XP2 p) = XP2 q.
Proof. exact C103_nearest_is_unique_2d_pf. Qed.
Print Assumptions C103_nearest_is_unique_2d.
Theorem C103_nearest_is_unique_3d : forall (b : BoundingBox3 R) (p q : Point3 R), bb3_is_inside (XB3 b) (XP3 q) = true ->
  p3_distance (XP3 p) (XP3 q) = p3_distance (XP3 p) (clamp3 (XB3 b) (XP3 p)) -> clamp3 (XB3 b) (XP3 p) = XP3 q.
Proof. exact C103_nearest_is_unique_3d_pf. Qed.
Print Assumptions C103_nearest_is_unique_3d.
(** clamping brings no two points farther apart, in the computed distances *)
Theorem C103_clamp_contracts_2d : forall (A : arith) (b : BoundingBox2 (num A)) (c p q : Point2 (num A)), Finite2 c -> bb2_is_inside b c = true -> Finite2 p -> Finite2 q ->
  Le (p2_distance (clamp2 b p) (clamp2 b q)) (p2_distance p q).
Proof. exact C103_clamp_contracts_2d_pf. Qed.
Print Assumptions C103_clamp_contracts_2d.
Theorem C103_clamp_contracts_3d : forall (A : arith) (b : BoundingBox3 (num A)) (c p q : Point3 (num A)), Finite3 c -> bb3_is_inside b c = true -> Finite3 p -> Finite3 q ->
  Le (p3_distance (clamp3 b p) (clamp3 b q)) (p3_distance p q).
Proof. exact C103_clamp_contracts_3d_pf. Qed.
Print Assumptions C103_clamp_contracts_3d.
(** clamping to two overlapping boxes in turn is clamping to their intersection *)
Theorem C103_clamp_to_intersection_2d : forall (A : arith) (a b c : BoundingBox2 (num A)) (p : Point2 (num A)), Ordered2 a -> Ordered2 b -> bb2_intersect a b = Some c -> NoNaN2 p ->
  PEq2 (clamp2 c p) (clamp2 a (clamp2 b p)).
Proof. exact C103_clamp_to_intersection_2d_pf. Qed.
Print Assumptions C103_clamp_to_intersection_2d.
Theorem C103_clamp_to_intersection_3d : forall (A : arith) (a b c : BoundingBox3 (num A)) (p : Point3 (num A)), Ordered3 a -> Ordered3 b -> bb3_intersect a b = Some c -> NoNaN3 p ->
  PEq3 (clamp3 c p) (clamp3 a (clamp3 b p)).
Proof. exact C103_clamp_to_intersection_3d_pf. Qed.
Print Assumptions C103_clamp_to_intersection_3d.
(** the search that skips every subtree whose box is not closer than the best point so far returns a nearest point, in the computed distances and comparisons *)
Theorem C104_nearest_neighbour_2d : forall (A : arith) (t : ptree2 (num A)) (q best : Point2 (num A)), Finite2 q -> Forall NoNaN2 (points2 t) -> NoNaN2 best ->
  let m := nn2 q t best in (m = best \/ In m (points2 t)) /\
  forall x, x = best \/ In x (points2 t) -> Le (p2_distance q m) (p2_distance q x) /\ p2_is_closer_to q x m = false.
Proof. exact C104_nearest_neighbour_2d_pf. Qed.
Print Assumptions C104_nearest_neighbour_2d.
Theorem C104_nearest_neighbour_3d : forall (A : arith) (t : ptree3 (num A)) (q best : Point3 (num A)), Finite3 q -> Forall NoNaN3 (points3 t) -> NoNaN3 best ->
  let m := nn3 q t best in (m = best \/ In m (points3 t)) /\
  forall x, x = best \/ In x (points3 t) -> Le (p3_distance q m) (p3_distance q x) /\ p3_is_closer_to q x m = false.
Proof. exact C104_nearest_neighbour_3d_pf. Qed.
Print Assumptions C104_nearest_neighbour_3d.
(* the hypotheses are met: a box and a point outside, and a tree of three points, one of which the search skips *)
Example C103_example : let b := mkBB3 (mkPoint3 (d64 0 0) (d64 0 0) (d64 0 0)) (mkPoint3 (d64 8 0) (d64 4 0) (d64 4 0)) : BoundingBox3 (num A64) in
  let p := mkPoint3 (d64 9 0) (d64 1 0) (nd64 1 0) in let q := mkPoint3 (d64 9 0) (d64 7 0) (nd64 1 0) in
  Ordered3 b /\ Finite3 p /\ Finite3 q /\ PEq3 (clamp3 b p) (mkPoint3 (d64 8 0) (d64 1 0) (d64 0 0)) /\ bb3_is_inside b p = false /\ bb3_is_inside b (bb3_min b) = true /\ Lt (p3_distance (clamp3 b p) (clamp3 b q)) (p3_distance p q).
Proof. cbv zeta. repeat match goal with |- _ /\ _ => split end; try (intros []; vm_compute; reflexivity); vm_compute; reflexivity. Qed.
Example C104_example : let q := mkPoint2 (d64 0 0) (d64 0 0) : Point2 (num A64) in let t := PNode2 (PLeaf2 (mkPoint2 (d64 1 0) (d64 1 0))) (PNode2 (PLeaf2 (mkPoint2 (d64 5 0) (d64 9 0))) (PLeaf2 (mkPoint2 (d64 7 0) (d64 6 0)))) in
  let best := mkPoint2 (d64 3 0) (d64 3 0) in
  Finite2 q /\ Forall NoNaN2 (points2 t) /\ NoNaN2 best /\ PEq2 (nn2 q t best) (mkPoint2 (d64 1 0) (d64 1 0)).
Proof. cbv zeta. repeat match goal with |- _ /\ _ => split end; try (intros []; vm_compute; reflexivity). repeat (constructor; [intros []; vm_compute; reflexivity|]). constructor. Qed.
