(** Theorems: C119 (the ball around a box).  Exact arithmetic. *)
From Coq Require Import Bool NArith ZArith Reals List Lra.
From Verif Require Import Scalar Types Vector2 Vector3 Point2 Point3 Ray BoundingBox2 BoundingBox3
  XReal OrdLaws Arith SpecOrder SpecReal SpecBox SpecHull XTac ExactBase ExactVec ExactProj ExactCircum.
Import ListNotations.
Local Open Scope R_scope.
(** the ball around the centre whose radius is half the length of the diagonal contains the box, and all corners lie on its surface *)
Theorem C119_ball_contains_box_2d : forall (prof : profile) (b : BoundingBox2 R), let radius := smul (v2_length (bb2_diagonal (XB2 b))) shalf in
  (forall p : Point2 R, Rin2 p b -> Le (p2_distance (bb2_center (XB2 b)) (XP2 p)) radius) /\
  (forall c : Point2 xreal, In c (corners2 prof (XB2 b)) -> p2_distance (bb2_center (XB2 b)) c = radius).
Proof. exact C119_ball_contains_box_2d_pf. Qed.
Print Assumptions C119_ball_contains_box_2d.
Theorem C119_ball_contains_box_3d : forall (prof : profile) (b : BoundingBox3 R), let radius := smul (v3_length (bb3_diagonal (XB3 b))) shalf in
  (forall p : Point3 R, Rin3 p b -> Le (p3_distance (bb3_center (XB3 b)) (XP3 p)) radius) /\
  (forall c : Point3 xreal, In c (corners3 prof (XB3 b)) -> p3_distance (bb3_center (XB3 b)) c = radius).
Proof. exact C119_ball_contains_box_3d_pf. Qed.
Print Assumptions C119_ball_contains_box_3d.
(** no smaller ball contains the corners, and no other ball of that radius does *)
Theorem C119_smallest_ball_2d : forall (prof : profile) (b : BoundingBox2 R) (q : Point2 R) (r : R), let radius := smul (v2_length (bb2_diagonal (XB2 b))) shalf in
  (forall c : Point2 xreal, In c (corners2 prof (XB2 b)) -> Le (p2_distance (XP2 q) c) (Fin r)) ->
  Le radius (Fin r) /\ (radius = Fin r -> XP2 q = bb2_center (XB2 b)).
Proof. exact C119_smallest_ball_2d_pf. Qed.
Print Assumptions C119_smallest_ball_2d.
Theorem C119_smallest_ball_3d : forall (prof : profile) (b : BoundingBox3 R) (q : Point3 R) (r : R), let radius := smul (v3_length (bb3_diagonal (XB3 b))) shalf in
  (forall c : Point3 xreal, In c (corners3 prof (XB3 b)) -> Le (p3_distance (XP3 q) c) (Fin r)) ->
  Le radius (Fin r) /\ (radius = Fin r -> XP3 q = bb3_center (XB3 b)).
Proof. exact C119_smallest_ball_3d_pf. Qed.
Print Assumptions C119_smallest_ball_3d.
(** boxes whose balls are apart do not overlap, and a point outside the ball is not inside the box *)
Theorem C119_apart_2d : forall (a b : BoundingBox2 R), Rordered2 a -> Rordered2 b ->
  let radius := (fun c => smul (v2_length (bb2_diagonal (XB2 c))) shalf) in
  (slt (sadd (radius a) (radius b)) (p2_distance (bb2_center (XB2 a)) (bb2_center (XB2 b))) = true -> bb2_overlaps (XB2 a) (XB2 b) = false) /\
  (forall p : Point2 R, slt (radius a) (p2_distance (bb2_center (XB2 a)) (XP2 p)) = true -> bb2_is_inside (XB2 a) (XP2 p) = false).
Proof. exact C119_apart_2d_pf. Qed.
Print Assumptions C119_apart_2d.
Theorem C119_apart_3d : forall (a b : BoundingBox3 R), Rordered3 a -> Rordered3 b ->
  let radius := (fun c => smul (v3_length (bb3_diagonal (XB3 c))) shalf) in
  (slt (sadd (radius a) (radius b)) (p3_distance (bb3_center (XB3 a)) (bb3_center (XB3 b))) = true -> bb3_overlaps (XB3 a) (XB3 b) = false) /\
  (forall p : Point3 R, slt (radius a) (p3_distance (bb3_center (XB3 a)) (XP3 p)) = true -> bb3_is_inside (XB3 a) (XP3 p) = false).
Proof. exact C119_apart_3d_pf. Qed.
Print Assumptions C119_apart_3d.
(* the unit cube and the one at 4: their balls are apart; 1/4 .. 1/4 is in the cube; the ball of radius 2 around 1 .. 1 holds the corners *)
Example C119_example_2d : forall prof : profile, Rordered2 (cube2 0) /\ Rordered2 (cube2 4) /\ Rin2 (pt2 (1 / 4)) (cube2 0) /\
  bb2_overlaps (XB2 (cube2 0)) (XB2 (cube2 4)) = false /\
  (forall c : Point2 xreal, In c (corners2 prof (XB2 (cube2 0))) -> Le (p2_distance (XP2 (pt2 1)) c) (Fin 2)).
Proof.
  intros prof. assert (A : Rordered2 (cube2 0)) by (unfold Rordered2, cube2; cbn; lra). assert (B : Rordered2 (cube2 4)) by (unfold Rordered2, cube2; cbn; lra).
  split; [exact A|]. split; [exact B|]. split; [unfold Rin2, cube2, pt2; cbn; lra|]. split; [exact (proj1 (C119_apart_2d _ _ A B) far2)|].
  intros c I. rewrite cps2_corners in I. apply in_map_iff in I. destruct I as (k & <- & I). rewrite xdist2. unfold Le. cbn [sle xreal_ops]. apply xle_fin.
  rewrite <- (sqrt_square 2) by lra. apply sqrt_le_1_alt. unfold cps2 in I. cbn [In cube2 bb2_min bb2_max] in I. repeat (destruct I as [<-|I]); [..|destruct I]; unfold dsq2, pt2; cbn; lra.
Qed.
(* the unit cube and the one at 4: their balls are apart; 1/4 .. 1/4 is in the cube; the ball of radius 2 around 1 .. 1 holds the corners *)
Example C119_example_3d : forall prof : profile, Rordered3 (cube3 0) /\ Rordered3 (cube3 4) /\ Rin3 (pt3 (1 / 4)) (cube3 0) /\
  bb3_overlaps (XB3 (cube3 0)) (XB3 (cube3 4)) = false /\
  (forall c : Point3 xreal, In c (corners3 prof (XB3 (cube3 0))) -> Le (p3_distance (XP3 (pt3 1)) c) (Fin 2)).
Proof.
  intros prof. assert (A : Rordered3 (cube3 0)) by (unfold Rordered3, cube3; cbn; lra). assert (B : Rordered3 (cube3 4)) by (unfold Rordered3, cube3; cbn; lra).
  split; [exact A|]. split; [exact B|]. split; [unfold Rin3, cube3, pt3; cbn; lra|]. split; [exact (proj1 (C119_apart_3d _ _ A B) far3)|].
  intros c I. rewrite cps3_corners in I. apply in_map_iff in I. destruct I as (k & <- & I). rewrite xdist3. unfold Le. cbn [sle xreal_ops]. apply xle_fin.
  rewrite <- (sqrt_square 2) by lra. apply sqrt_le_1_alt. unfold cps3 in I. cbn [In cube3 bb3_min bb3_max] in I. repeat (destruct I as [<-|I]); [..|destruct I]; unfold dsq3, pt3; cbn; lra.
Qed.
