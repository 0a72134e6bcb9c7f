(** Theorems: C105 (extreme corners), C106 (the box of the transformed corners).
    [A] ranges over f32 and f64 on every platform, and exact reals extended with infinities and NaN. *)
From Coq Require Import Bool NArith ZArith Reals List Lia.
From Verif Require Import Scalar Types Vector2 Vector3 Point2 Point3 Ray BoundingBox2 BoundingBox3 Transform2 Transform3 Float XReal Arith SpecOrder SpecFloat SpecErr SpecHull ExVals FloatHull.
Import ListNotations.
(** the dot product of a direction with the points of a box is extreme at the two corners chosen by the signs of the direction, in the computed values; in between it is finite if it is finite at these two *)
Theorem C105_extreme_corners_2d : forall (A : arith) (prof : profile) (b : BoundingBox2 (num A)) (v : Vector2 (num A)) (p : Point2 (num A)), bb2_is_inside b p = true -> Finite2 p ->
  exists lo hi, bb2_corner prof b (support2 (v2_neg v)) = Ret lo /\ bb2_corner prof b (support2 v) = Ret hi /\
  (Finite (v2_dot v (v2_from lo)) -> Finite (v2_dot v (v2_from hi)) ->
   Finite (v2_dot v (v2_from p)) /\ Le (v2_dot v (v2_from lo)) (v2_dot v (v2_from p)) /\ Le (v2_dot v (v2_from p)) (v2_dot v (v2_from hi))).
Proof. exact C105_extreme_corners_2d_pf. Qed.
Print Assumptions C105_extreme_corners_2d.
Theorem C105_extreme_corners_3d : forall (A : arith) (prof : profile) (b : BoundingBox3 (num A)) (v : Vector3 (num A)) (p : Point3 (num A)), bb3_is_inside b p = true -> Finite3 p ->
  exists lo hi, bb3_corner prof b (support3 (v3_neg v)) = Ret lo /\ bb3_corner prof b (support3 v) = Ret hi /\
  (Finite (v3_dot v (v3_from lo)) -> Finite (v3_dot v (v3_from hi)) ->
   Finite (v3_dot v (v3_from p)) /\ Le (v3_dot v (v3_from lo)) (v3_dot v (v3_from p)) /\ Le (v3_dot v (v3_from p)) (v3_dot v (v3_from hi))).
Proof. exact C105_extreme_corners_3d_pf. Qed.
Print Assumptions C105_extreme_corners_3d.
(** the box of the transformed corners contains the image of every point of the box, exactly, also in floating point (unlike transform of the box, C47 and C71) *)
Theorem C106_corner_hull_2d : forall (A : arith) (prof : profile) (t : Transform2 (num A)) (b : BoundingBox2 (num A)) (p : Point2 (num A)), Affine3x3 (t2_forward t) -> BFinite2 b ->
  (forall c, In c (corners2 prof b) -> Finite2 (t2_transform_point t c)) -> bb2_is_inside b p = true ->
  bb2_is_inside (hull2 (map (t2_transform_point t) (corners2 prof b))) (t2_transform_point t p) = true.
Proof. exact C106_corner_hull_2d_pf. Qed.
Print Assumptions C106_corner_hull_2d.
Theorem C106_corner_hull_3d : forall (A : arith) (prof : profile) (t : Transform3 (num A)) (b : BoundingBox3 (num A)) (p : Point3 (num A)), Affine4x4 (t3_forward t) -> BFinite3 b ->
  (forall c, In c (corners3 prof b) -> Finite3 (t3_transform_point t c)) -> bb3_is_inside b p = true ->
  bb3_is_inside (hull3 (map (t3_transform_point t) (corners3 prof b))) (t3_transform_point t p) = true.
Proof. exact C106_corner_hull_3d_pf. Qed.
Print Assumptions C106_corner_hull_3d.
(** and it is the smallest box that contains the images of the corners, so no smaller box will do *)
Theorem C106_hull_is_smallest_2d : forall (A : arith) (prof : profile) (t : Transform2 (num A)) (b c : BoundingBox2 (num A)), (forall q, In q (corners2 prof b) -> Finite2 (t2_transform_point t q)) ->
  (forall p, bb2_is_inside b p = true -> bb2_is_inside c (t2_transform_point t p) = true) -> Ordered2 b ->
  forall q, bb2_is_inside (hull2 (map (t2_transform_point t) (corners2 prof b))) q = true -> bb2_is_inside c q = true.
Proof. exact C106_hull_is_smallest_2d_pf. Qed.
Print Assumptions C106_hull_is_smallest_2d.
Theorem C106_hull_is_smallest_3d : forall (A : arith) (prof : profile) (t : Transform3 (num A)) (b c : BoundingBox3 (num A)), (forall q, In q (corners3 prof b) -> Finite3 (t3_transform_point t q)) ->
  (forall p, bb3_is_inside b p = true -> bb3_is_inside c (t3_transform_point t p) = true) -> Ordered3 b ->
  forall q, bb3_is_inside (hull3 (map (t3_transform_point t) (corners3 prof b))) q = true -> bb3_is_inside c q = true.
Proof. exact C106_hull_is_smallest_3d_pf. Qed.
Print Assumptions C106_hull_is_smallest_3d.
(* the hypotheses are met; and a rotation, for which transform of the box loses a point that the box of the corners contains *)
Example C105_example : let b := mkBB3 (mkPoint3 (nd64 1 0) (d64 0 0) (d64 0 0)) (mkPoint3 (d64 8 0) (d64 4 0) (d64 4 0)) : BoundingBox3 (num A64) in
  let v := mkVector3 (d64 1 0) (nd64 3 0) (d64 0 0) in let p := mkPoint3 (d64 5 0) (d64 1 0) (d64 1 (-1)) in
  bb3_is_inside b p = true /\ Finite3 p /\ support3 v = 5%N /\ support3 (v3_neg v) = 6%N /\ Eqs (v3_dot v (v3_from p)) (d64 2 0).
Proof. cbv zeta. repeat match goal with |- _ /\ _ => split end; try (intros []; vm_compute; reflexivity); vm_compute; reflexivity. Qed.
Example C106_example : let b := mkBB2 (mkPoint2 (d64 0 0) (d64 0 0)) (mkPoint2 (d64 2 0) (d64 1 0)) : BoundingBox2 (num A64) in
  let t := mkT2 (mkM3 (d64 3 0) (nd64 4 0) (d64 1 0) (d64 4 0) (d64 3 0) (d64 0 0) (d64 0 0) (d64 0 0) (d64 1 0)) m3_identity in let p := mkPoint2 (d64 0 0) (d64 1 0) in
  Affine3x3 (t2_forward t) /\ BFinite2 b /\ (forall prof c, In c (corners2 prof b) -> Finite2 (t2_transform_point t c)) /\ bb2_is_inside b p = true /\
  bb2_is_inside (t2_transform_bb t b) (t2_transform_point t p) = false.
Proof.
  cbv zeta. split; [repeat split; vm_compute; reflexivity|]. split; [split; intros []; vm_compute; reflexivity|]. split; [|split; vm_compute; reflexivity].
  intros prof c I. rewrite corners2_all in I. destruct I as [<-|[<-|[<-|[<-|[]]]]]; intros []; vm_compute; reflexivity.
Qed.
