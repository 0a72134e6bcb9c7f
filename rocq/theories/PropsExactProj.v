(** Theorems: C116 (projective transforms).  Exact arithmetic; [m] and [t] hold any real matrix, also one whose last row is not 0 .. 0 1. *)
From Coq Require Import Bool NArith ZArith Reals List Lra.
From Verif Require Import Scalar Types Vector2 Vector3 Point2 Point3 Ray BoundingBox2 BoundingBox3 Transform2 Transform3
  Float XReal OrdLaws Arith SpecOrder SpecReal SpecBox SpecHull OrderBox XTac ExactBase ExactMat ExactProj.
Import ListNotations.
Local Open Scope R_scope.
Theorem C116_corner_hull_2d : forall (prof : profile) (t : Transform2 R) (b : BoundingBox2 R) (p : Point2 R),
  (forall c, In (XP2 c) (corners2 prof (XB2 b)) -> 0 < weight2 (t2_forward t) c) -> Rin2 p b ->
  bb2_is_inside (hull2 (map (t2_transform_point (XT2 t)) (corners2 prof (XB2 b)))) (t2_transform_point (XT2 t) (XP2 p)) = true.
Proof. exact C116_corner_hull_2d_pf. Qed.
Print Assumptions C116_corner_hull_2d.
Theorem C116_corner_hull_3d : forall (prof : profile) (t : Transform3 R) (b : BoundingBox3 R) (p : Point3 R),
  (forall c, In (XP3 c) (corners3 prof (XB3 b)) -> 0 < weight3 (t3_forward t) c) -> Rin3 p b ->
  bb3_is_inside (hull3 (map (t3_transform_point (XT3 t)) (corners3 prof (XB3 b)))) (t3_transform_point (XT3 t) (XP3 p)) = true.
Proof. exact C116_corner_hull_3d_pf. Qed.
Print Assumptions C116_corner_hull_3d.
(** it is the smallest such box: a box that contains the images of the corners contains the whole image *)
Theorem C116_hull_is_smallest_2d : forall (prof : profile) (t : Transform2 R) (b : BoundingBox2 R) (c : BoundingBox2 xreal),
  (forall q, In (XP2 q) (corners2 prof (XB2 b)) -> 0 < weight2 (t2_forward t) q) ->
  (forall q, In q (corners2 prof (XB2 b)) -> bb2_is_inside c (t2_transform_point (XT2 t) q) = true) ->
  (forall q, bb2_is_inside (hull2 (map (t2_transform_point (XT2 t)) (corners2 prof (XB2 b)))) q = true -> bb2_is_inside c q = true) /\
  (forall p, Rin2 p b -> bb2_is_inside c (t2_transform_point (XT2 t) (XP2 p)) = true).
Proof. exact C116_hull_is_smallest_2d_pf. Qed.
Print Assumptions C116_hull_is_smallest_2d.
Theorem C116_hull_is_smallest_3d : forall (prof : profile) (t : Transform3 R) (b : BoundingBox3 R) (c : BoundingBox3 xreal),
  (forall q, In (XP3 q) (corners3 prof (XB3 b)) -> 0 < weight3 (t3_forward t) q) ->
  (forall q, In q (corners3 prof (XB3 b)) -> bb3_is_inside c (t3_transform_point (XT3 t) q) = true) ->
  (forall q, bb3_is_inside (hull3 (map (t3_transform_point (XT3 t)) (corners3 prof (XB3 b)))) q = true -> bb3_is_inside c q = true) /\
  (forall p, Rin3 p b -> bb3_is_inside c (t3_transform_point (XT3 t) (XP3 p)) = true).
Proof. exact C116_hull_is_smallest_3d_pf. Qed.
Print Assumptions C116_hull_is_smallest_3d.
(** frustum culling: when it does not overlap the visible box, no point of the box is visible *)
Theorem C116_culling_2d : forall (prof : profile) (t : Transform2 R) (b : BoundingBox2 R) (v : BoundingBox2 xreal) (p : Point2 R),
  (forall c, In (XP2 c) (corners2 prof (XB2 b)) -> 0 < weight2 (t2_forward t) c) -> Ordered2 v ->
  bb2_overlaps (hull2 (map (t2_transform_point (XT2 t)) (corners2 prof (XB2 b)))) v = false -> Rin2 p b ->
  bb2_is_inside v (t2_transform_point (XT2 t) (XP2 p)) = false.
Proof. exact C116_culling_2d_pf. Qed.
Print Assumptions C116_culling_2d.
Theorem C116_culling_3d : forall (prof : profile) (t : Transform3 R) (b : BoundingBox3 R) (v : BoundingBox3 xreal) (p : Point3 R),
  (forall c, In (XP3 c) (corners3 prof (XB3 b)) -> 0 < weight3 (t3_forward t) c) -> Ordered3 v ->
  bb3_overlaps (hull3 (map (t3_transform_point (XT3 t)) (corners3 prof (XB3 b)))) v = false -> Rin3 p b ->
  bb3_is_inside v (t3_transform_point (XT3 t) (XP3 p)) = false.
Proof. exact C116_culling_3d_pf. Qed.
Print Assumptions C116_culling_3d.
(** a segment in front of the camera goes to the segment of the images; parameter s goes to a parameter given by the weights *)
Theorem C116_segments_2d : forall (m : Matrix3x3 R) (p q : Point2 R) (s : R), 0 < weight2 m p -> 0 < weight2 m q -> 0 <= s <= 1 ->
  let l := s * weight2 m q / ((1 - s) * weight2 m p + s * weight2 m q) in
  let P := m3_mul_point (XM3 m) (XP2 p) in let Q := m3_mul_point (XM3 m) (XP2 q) in
  0 <= l <= 1 /\
  m3_mul_point (XM3 m) (p2_add (XP2 p) (v2_mul (p2_sub (XP2 q) (XP2 p)) (Fin s))) = p2_add P (v2_mul (p2_sub Q P) (Fin l)).
Proof. exact C116_segments_2d_pf. Qed.
Print Assumptions C116_segments_2d.
Theorem C116_segments_3d : forall (m : Matrix4x4 R) (p q : Point3 R) (s : R), 0 < weight3 m p -> 0 < weight3 m q -> 0 <= s <= 1 ->
  let l := s * weight3 m q / ((1 - s) * weight3 m p + s * weight3 m q) in
  let P := m4_mul_point (XM4 m) (XP3 p) in let Q := m4_mul_point (XM4 m) (XP3 q) in
  0 <= l <= 1 /\
  m4_mul_point (XM4 m) (p3_add (XP3 p) (v3_mul (p3_sub (XP3 q) (XP3 p)) (Fin s))) = p3_add P (v3_mul (p3_sub Q P) (Fin l)).
Proof. exact C116_segments_3d_pf. Qed.
Print Assumptions C116_segments_3d.
(** what is farther along the segment stays farther *)
Theorem C116_depth_order_2d : forall (m : Matrix3x3 R) (p q : Point2 R) (s r : R), 0 < weight2 m p -> 0 < weight2 m q -> 0 <= s <= r -> r <= 1 ->
  let at_ x := m3_mul_point (XM3 m) (p2_add (XP2 p) (v2_mul (p2_sub (XP2 q) (XP2 p)) (Fin x))) in
  Le (p2_distance (at_ 0) (at_ s)) (p2_distance (at_ 0) (at_ r)).
Proof. exact C116_depth_order_2d_pf. Qed.
Print Assumptions C116_depth_order_2d.
Theorem C116_depth_order_3d : forall (m : Matrix4x4 R) (p q : Point3 R) (s r : R), 0 < weight3 m p -> 0 < weight3 m q -> 0 <= s <= r -> r <= 1 ->
  let at_ x := m4_mul_point (XM4 m) (p3_add (XP3 p) (v3_mul (p3_sub (XP3 q) (XP3 p)) (Fin x))) in
  Le (p3_distance (at_ 0) (at_ s)) (p3_distance (at_ 0) (at_ r)).
Proof. exact C116_depth_order_3d_pf. Qed.
Print Assumptions C116_depth_order_3d.
(** the condition on the weights is needed: of a box that reaches behind the eye, a point in front of the eye is projected out of the box of the corners *)
Theorem C116_weights_are_needed_2d : forall prof : profile, exists (t : Transform2 R) (b : BoundingBox2 R) (p : Point2 R), Rin2 p b /\ 0 < weight2 (t2_forward t) p /\
  (forall c, In (XP2 c) (corners2 prof (XB2 b)) -> weight2 (t2_forward t) c <> 0) /\
  bb2_is_inside (hull2 (map (t2_transform_point (XT2 t)) (corners2 prof (XB2 b)))) (t2_transform_point (XT2 t) (XP2 p)) = false.
Proof. exact C116_weights_are_needed_2d_pf. Qed.
Print Assumptions C116_weights_are_needed_2d.
Theorem C116_weights_are_needed_3d : forall prof : profile, exists (t : Transform3 R) (b : BoundingBox3 R) (p : Point3 R), Rin3 p b /\ 0 < weight3 (t3_forward t) p /\
  (forall c, In (XP3 c) (corners3 prof (XB3 b)) -> weight3 (t3_forward t) c <> 0) /\
  bb3_is_inside (hull3 (map (t3_transform_point (XT3 t)) (corners3 prof (XB3 b)))) (t3_transform_point (XT3 t) (XP3 p)) = false.
Proof. exact C116_weights_are_needed_3d_pf. Qed.
Print Assumptions C116_weights_are_needed_3d.
(* the hypotheses are met: a box in front of the eye, a point in it, and a visible box that the projected box does not reach *)
Example C116_example_2d : forall prof : profile, (forall c, In (XP2 c) (corners2 prof (XB2 (pbox2 1 2))) -> 0 < weight2 (t2_forward persp2) c) /\ Rin2 (mkPoint2 (3 / 2) (1 / 2)) (pbox2 1 2) /\
  t2_transform_point (XT2 persp2) (XP2 (mkPoint2 (3 / 2) (1 / 2))) = XP2 (mkPoint2 (2 / 3) (1 / 3)) /\ 0 < weight2 (t2_forward persp2) (mkPoint2 (3 / 2) (1 / 2)) /\
  bb2_overlaps (hull2 (map (t2_transform_point (XT2 persp2)) (corners2 prof (XB2 (pbox2 1 2))))) (XB2 (mkBB2 (mkPoint2 2 2) (mkPoint2 3 3))) = false.
Proof.
  intros prof. assert (W : forall c, In (XP2 c) (corners2 prof (XB2 (pbox2 1 2))) -> 0 < weight2 (t2_forward persp2) c).
  { intros c H. apply cps2_in in H. cbn in H. repeat (destruct H as [<- |H]; [rewrite persp2_w; lra|]). destruct H. }
  split; [exact W|]. split; [unfold Rin2, pbox2; cbn [p2x p2y bb2_min bb2_max]; lra|]. split; [rewrite persp2_at by lra; f_equal; f_equal; field|]. split; [rewrite persp2_w; lra|].
  pose proof (C116_hull_is_smallest_2d prof persp2 (pbox2 1 2) (XB2 (mkBB2 (mkPoint2 (-1) (-1)) (mkPoint2 1 1))) W) as [K _].
  { intros x X. rewrite cps2_corners in X. apply in_map_iff in X. destruct X as (c & <- & C). cbn in C. apply bb2_is_inside_iff. repeat (destruct C as [<- |C]; [rewrite persp2_at by lra; split; intros []; cbn -[Rinv]; apply xle_fin; rewrite ?Rinv_1; lra|]). destruct C. }
  apply not_true_is_false. intros I. apply (bb2_overlaps_iff xreal_OrdLaws) in I.
  - destruct I as (q & Q1 & [Q2 _]). apply bb2_is_inside_iff, K, bb2_is_inside_iff in Q1. destruct Q1 as [_ Q1]. specialize (Q1 D2X). specialize (Q2 D2X). pose proof (ol_trans _ xreal_OrdLaws _ _ _ Q2 Q1) as N. cbn in N. apply xle_fin in N. lra.
  - exact (proj1 (hull2_props prof persp2 (pbox2 1 2) W)).
  - intros []; cbn; apply xle_fin; lra.
Qed.
(* the hypotheses are met: a box in front of the eye, a point in it, and a visible box that the projected box does not reach *)
Example C116_example_3d : forall prof : profile, (forall c, In (XP3 c) (corners3 prof (XB3 (pbox3 1 2))) -> 0 < weight3 (t3_forward persp3) c) /\ Rin3 (mkPoint3 (3 / 2) (1 / 2) (1 / 4)) (pbox3 1 2) /\
  t3_transform_point (XT3 persp3) (XP3 (mkPoint3 (3 / 2) (1 / 2) (1 / 4))) = XP3 (mkPoint3 (2 / 3) (1 / 3) (1 / 6)) /\ 0 < weight3 (t3_forward persp3) (mkPoint3 (3 / 2) (1 / 2) (1 / 4)) /\
  bb3_overlaps (hull3 (map (t3_transform_point (XT3 persp3)) (corners3 prof (XB3 (pbox3 1 2))))) (XB3 (mkBB3 (mkPoint3 2 2 2) (mkPoint3 3 3 3))) = false.
Proof.
  intros prof. assert (W : forall c, In (XP3 c) (corners3 prof (XB3 (pbox3 1 2))) -> 0 < weight3 (t3_forward persp3) c).
  { intros c H. apply cps3_in in H. cbn in H. repeat (destruct H as [<- |H]; [rewrite persp3_w; lra|]). destruct H. }
  split; [exact W|]. split; [unfold Rin3, pbox3; cbn [p3x p3y p3z bb3_min bb3_max]; lra|]. split; [rewrite persp3_at by lra; f_equal; f_equal; field|]. split; [rewrite persp3_w; lra|].
  pose proof (C116_hull_is_smallest_3d prof persp3 (pbox3 1 2) (XB3 (mkBB3 (mkPoint3 (-1) (-1) (-1)) (mkPoint3 1 1 1))) W) as [K _].
  { intros x X. rewrite cps3_corners in X. apply in_map_iff in X. destruct X as (c & <- & C). cbn in C. apply bb3_is_inside_iff. repeat (destruct C as [<- |C]; [rewrite persp3_at by lra; split; intros []; cbn -[Rinv]; apply xle_fin; rewrite ?Rinv_1; lra|]). destruct C. }
  apply not_true_is_false. intros I. apply (bb3_overlaps_iff xreal_OrdLaws) in I.
  - destruct I as (q & Q1 & [Q2 _]). apply bb3_is_inside_iff, K, bb3_is_inside_iff in Q1. destruct Q1 as [_ Q1]. specialize (Q1 D3X). specialize (Q2 D3X). pose proof (ol_trans _ xreal_OrdLaws _ _ _ Q2 Q1) as N. cbn in N. apply xle_fin in N. lra.
  - exact (proj1 (hull3_props prof persp3 (pbox3 1 2) W)).
  - intros []; cbn; apply xle_fin; lra.
Qed.
