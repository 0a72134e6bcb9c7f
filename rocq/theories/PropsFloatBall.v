(** Theorems: C108 (balls and boxes), C109 (range search).
    [A] ranges over f32 and f64 on every platform, and exact reals extended with infinities and NaN. *)
From Coq Require Import Bool NArith ZArith Reals List Lia.
From Verif Require Import Scalar Types Vector2 Vector3 Point2 Point3 Ray BoundingBox2 BoundingBox3 Float XReal Arith SpecOrder SpecFloat SpecErr SpecReal SpecNear SpecHull SpecBall ExVals FloatHull FloatOct FloatBall.
Import ListNotations.
Local Open Scope R_scope.
(** a ball contains a box exactly if it contains the corners *)
Theorem C108_ball_contains_box_2d : forall (A : arith) (prof : profile) (b : BoundingBox2 (num A)) (c : Point2 (num A)) (r : num A), Ordered2 b -> Finite2 c ->
  ((forall k, In k (corners2 prof b) -> Le (p2_distance c k) r) <-> (forall p, bb2_is_inside b p = true -> Le (p2_distance c p) r)).
Proof. exact C108_ball_contains_box_2d_pf. Qed.
Print Assumptions C108_ball_contains_box_2d.
Theorem C108_ball_contains_box_3d : forall (A : arith) (prof : profile) (b : BoundingBox3 (num A)) (c : Point3 (num A)) (r : num A), Ordered3 b -> Finite3 c ->
  ((forall k, In k (corners3 prof b) -> Le (p3_distance c k) r) <-> (forall p, bb3_is_inside b p = true -> Le (p3_distance c p) r)).
Proof. exact C108_ball_contains_box_3d_pf. Qed.
Print Assumptions C108_ball_contains_box_3d.
(** a ball meets a box exactly if it contains the point of the box nearest to its center *)
Theorem C108_ball_meets_box_2d : forall (A : arith) (b : BoundingBox2 (num A)) (c : Point2 (num A)) (r : num A), Ordered2 b -> Finite2 c ->
  (Le (p2_distance c (clamp2 b c)) r <-> exists p, bb2_is_inside b p = true /\ Le (p2_distance c p) r).
Proof. exact C108_ball_meets_box_2d_pf. Qed.
Print Assumptions C108_ball_meets_box_2d.
Theorem C108_ball_meets_box_3d : forall (A : arith) (b : BoundingBox3 (num A)) (c : Point3 (num A)) (r : num A), Ordered3 b -> Finite3 c ->
  (Le (p3_distance c (clamp3 b c)) r <-> exists p, bb3_is_inside b p = true /\ Le (p3_distance c p) r).
Proof. exact C108_ball_meets_box_3d_pf. Qed.
Print Assumptions C108_ball_meets_box_3d.
(** the search that skips and takes whole subtrees finds exactly the points within r, in the order of the tree *)
Theorem C109_range_search_2d : forall (A : arith) (prof : profile) (q : Point2 (num A)) (r : num A) (t : ptree2 (num A)), Finite2 q -> Forall NoNaN2 (points2 t) ->
  within2 prof q r t = filter (fun p => sle (p2_distance q p) r) (points2 t).
Proof. exact C109_range_search_2d_pf. Qed.
Print Assumptions C109_range_search_2d.
Theorem C109_range_search_3d : forall (A : arith) (prof : profile) (q : Point3 (num A)) (r : num A) (t : ptree3 (num A)), Finite3 q -> Forall NoNaN3 (points3 t) ->
  within3 prof q r t = filter (fun p => sle (p3_distance q p) r) (points3 t).
Proof. exact C109_range_search_3d_pf. Qed.
Print Assumptions C109_range_search_3d.
(** the box around a ball: in exact arithmetic it is the smallest box that contains the ball *)
Theorem C108_box_around_ball_exact_2d : forall (c : Point2 R) (r : R), 0 <= r ->
  (forall q, Rdist2 c q <= r -> bb2_is_inside (ball_box2 (XP2 c) (Fin r)) (XP2 q) = true) /\
  (forall b : BoundingBox2 xreal, (forall q, Rdist2 c q <= r -> bb2_is_inside b (XP2 q) = true) -> Incl2 (ball_box2 (XP2 c) (Fin r)) b).
Proof. exact C108_box_around_ball_exact_2d_pf. Qed.
Print Assumptions C108_box_around_ball_exact_2d.
Theorem C108_box_around_ball_exact_3d : forall (c : Point3 R) (r : R), 0 <= r ->
  (forall q, Rdist3 c q <= r -> bb3_is_inside (ball_box3 (XP3 c) (Fin r)) (XP3 q) = true) /\
  (forall b : BoundingBox3 xreal, (forall q, Rdist3 c q <= r -> bb3_is_inside b (XP3 q) = true) -> Incl3 (ball_box3 (XP3 c) (Fin r)) b).
Proof. exact C108_box_around_ball_exact_3d_pf. Qed.
Print Assumptions C108_box_around_ball_exact_3d.
(** in floating point a point at a computed distance of at most r can miss it by the rounding errors only *)
Theorem C108_box_around_ball_error_2d : forall (A : arith) (c q : Point2 (num A)) (r : num A) (d : Dimension2), (forall e, Finite (ssub (coord2 q e) (coord2 c e))) -> Finite (ssub (coord2 c d) r) -> Finite (sadd (coord2 c d) r) ->
  (let w := p2_sub q c in Finite (v2_dot w w) -> min_subnormal A <= unit_roundoff A * real_of (v2_dot w w)) -> Le (p2_distance c q) r ->
  let b := ball_box2 c r in let u := unit_roundoff A in let x := real_of (coord2 q d) in let y := real_of (coord2 c d) in let s := real_of r in
  real_of (coord2 (bb2_min b) d) - u * (Rabs (y - s) + 2 * s) <= x <= real_of (coord2 (bb2_max b) d) + u * (Rabs (y + s) + 2 * s).
Proof. exact C108_box_around_ball_error_2d_pf. Qed.
Print Assumptions C108_box_around_ball_error_2d.
Theorem C108_box_around_ball_error_3d : forall (A : arith) (c q : Point3 (num A)) (r : num A) (d : Dimension3), (forall e, Finite (ssub (coord3 q e) (coord3 c e))) -> Finite (ssub (coord3 c d) r) -> Finite (sadd (coord3 c d) r) ->
  (let w := p3_sub q c in Finite (v3_dot w w) -> min_subnormal A <= unit_roundoff A * real_of (v3_dot w w)) -> Le (p3_distance c q) r ->
  let b := ball_box3 c r in let u := unit_roundoff A in let x := real_of (coord3 q d) in let y := real_of (coord3 c d) in let s := real_of r in
  real_of (coord3 (bb3_min b) d) - u * (Rabs (y - s) + 2 * s) <= x <= real_of (coord3 (bb3_max b) d) + u * (Rabs (y + s) + 2 * s).
Proof. exact C108_box_around_ball_error_3d_pf. Qed.
Print Assumptions C108_box_around_ball_error_3d.
(* it can miss: the computed distance is r = 1, and the point is outside the box *)
Theorem C108_box_around_ball_misses : let c := mkPoint2 (nd64 3 (-55)) (d64 0 0) : Point2 (num A64) in let q := mkPoint2 (d64 1 0) (d64 0 0) in let r := d64 1 0 in
  Finite2 c /\ Finite2 q /\ Eqs (p2_distance c q) r /\ bb2_is_inside (ball_box2 c r) q = false.
Proof. cbv zeta. repeat match goal with |- _ /\ _ => split end; try (intros []; vm_compute; reflexivity); vm_compute; reflexivity. Qed.
Print Assumptions C108_box_around_ball_misses.
(* the hypotheses are met *)
Example C108_example : let b := mkBB3 (mkPoint3 (d64 0 0) (d64 0 0) (d64 0 0)) (mkPoint3 (d64 4 0) (d64 4 0) (d64 2 0)) : BoundingBox3 (num A64) in let c := mkPoint3 (d64 2 0) (d64 2 0) (d64 1 0) in
  Ordered3 b /\ Finite3 c /\ (forall prof k, In k (corners3 prof b) -> Le (p3_distance c k) (d64 3 0)) /\ Le (p3_distance (mkPoint3 (d64 7 0) (d64 1 0) (d64 1 0)) (clamp3 b (mkPoint3 (d64 7 0) (d64 1 0) (d64 1 0)))) (d64 3 0).
Proof.
  cbv zeta. split; [intros []; vm_compute; reflexivity|]. split; [intros []; vm_compute; reflexivity|]. split; [|vm_compute; reflexivity].
  intros prof k I. rewrite FloatOct.corners3_all in I. repeat (destruct I as [<-|I]; [vm_compute; reflexivity|]). destruct I.
Qed.
Example C109_example : let q := mkPoint2 (d64 0 0) (d64 0 0) : Point2 (num A64) in let t := PNode2 (PNode2 (PLeaf2 (mkPoint2 (d64 1 0) (d64 1 0))) (PLeaf2 (mkPoint2 (d64 2 0) (d64 1 0)))) (PNode2 (PLeaf2 (mkPoint2 (d64 5 0) (d64 9 0))) (PLeaf2 (mkPoint2 (d64 7 0) (d64 6 0)))) in
  Finite2 q /\ Forall NoNaN2 (points2 t) /\ length (filter (fun p => sle (p2_distance q p) (d64 4 0)) (points2 t)) = 2%nat.
Proof. cbv zeta. split; [intros []; vm_compute; reflexivity|]. split; [|vm_compute; reflexivity]. repeat (constructor; [intros []; vm_compute; reflexivity|]). constructor. Qed.
