(** Property theorems in exact arithmetic: C47 (transforming a bounding box) and C49 (degenerate look_at). *)
From Coq Require Import Bool NArith ZArith Reals List Lra.
From Verif Require Import Scalar Types Vector2 Vector3 Point2 Point3 Ray BoundingBox2 BoundingBox3 Transform2 Transform3
  XReal Arith SpecOrder SpecStruct SpecReal SpecBox SpecTrans ExactTransBox.
Import ListNotations.
Local Open Scope R_scope.
(** ** C47: transforming a bounding box.  The property is refuted; the result and the exact condition for containment are characterised *)
Theorem C47_result_2d : forall (t : Transform2 R) (b : BoundingBox2 R), affine2 (t2_forward t) ->
  t2_transform_bb (XT2 t) (XB2 b) = bb2_new (t2_transform_point (XT2 t) (XP2 (bb2_min b))) (t2_transform_point (XT2 t) (XP2 (bb2_max b))).
Proof. exact C47_result_2d_pf. Qed.
Print Assumptions C47_result_2d.
Theorem C47_result_3d : forall (t : Transform3 R) (b : BoundingBox3 R), affine3 (t3_forward t) ->
  t3_transform_bb (XT3 t) (XB3 b) = bb3_new (t3_transform_point (XT3 t) (XP3 (bb3_min b))) (t3_transform_point (XT3 t) (XP3 (bb3_max b))).
Proof. exact C47_result_3d_pf. Qed.
Print Assumptions C47_result_3d.
Theorem C47_containment_iff_2d : forall (t : Transform2 R) (b : BoundingBox2 R), affine2 (t2_forward t) -> Rordered2 b ->
  ((forall p, Rin2 p b -> bb2_is_inside (t2_transform_bb (XT2 t) (XB2 b)) (t2_transform_point (XT2 t) (XP2 p)) = true) <->
   same_direction2 (t2_forward t) b).
Proof. exact C47_containment_iff_2d_pf. Qed.
Print Assumptions C47_containment_iff_2d.
Theorem C47_containment_iff_3d : forall (t : Transform3 R) (b : BoundingBox3 R), affine3 (t3_forward t) -> Rordered3 b ->
  ((forall p, Rin3 p b -> bb3_is_inside (t3_transform_bb (XT3 t) (XB3 b)) (t3_transform_point (XT3 t) (XP3 p)) = true) <->
   same_direction3 (t3_forward t) b).
Proof. exact C47_containment_iff_3d_pf. Qed.
Print Assumptions C47_containment_iff_3d.
Theorem C47_translate_scale_2d : forall (t : Transform2 R) (b : BoundingBox2 R) (p : Point2 R), affine2 (t2_forward t) ->
  m3_1 (t2_forward t) = 0 -> m3_3 (t2_forward t) = 0 -> Rin2 p b ->
  bb2_is_inside (t2_transform_bb (XT2 t) (XB2 b)) (t2_transform_point (XT2 t) (XP2 p)) = true.
Proof. exact C47_translate_scale_2d_pf. Qed.
Print Assumptions C47_translate_scale_2d.
Theorem C47_translate_scale_3d : forall (t : Transform3 R) (b : BoundingBox3 R) (p : Point3 R), affine3 (t3_forward t) ->
  m4_1 (t3_forward t) = 0 -> m4_2 (t3_forward t) = 0 -> m4_4 (t3_forward t) = 0 -> m4_6 (t3_forward t) = 0 ->
  m4_8 (t3_forward t) = 0 -> m4_9 (t3_forward t) = 0 -> Rin3 p b ->
  bb3_is_inside (t3_transform_bb (XT3 t) (XB3 b)) (t3_transform_point (XT3 t) (XP3 p)) = true.
Proof. exact C47_translate_scale_3d_pf. Qed.
Print Assumptions C47_translate_scale_3d.
Theorem C47_containment_refuted_2d : exists (b : BoundingBox2 R) (p : Point2 R), Rordered2 b /\ bb2_is_inside (XB2 b) (XP2 p) = true /\
  bb2_is_inside (t2_transform_bb (t2_rotate (Fin (PI / 4))) (XB2 b)) (t2_transform_point (t2_rotate (Fin (PI / 4))) (XP2 p)) = false.
Proof. exact C47_containment_refuted_2d_pf. Qed.
Print Assumptions C47_containment_refuted_2d.
Theorem C47_containment_refuted_3d : exists (b : BoundingBox3 R) (p : Point3 R), Rordered3 b /\ bb3_is_inside (XB3 b) (XP3 p) = true /\
  bb3_is_inside (t3_transform_bb (t3_rotate_z (Fin (PI / 4))) (XB3 b)) (t3_transform_point (t3_rotate_z (Fin (PI / 4))) (XP3 p)) = false.
Proof. exact C47_containment_refuted_3d_pf. Qed.
Print Assumptions C47_containment_refuted_3d.
Example C47_example_2d : let t := mkT2 (mkM3 2 0 1 0 (-3) 4 0 0 1) (mkM3 (1/2) 0 (-1/2) 0 (-1/3) (4/3) 0 0 1) in let b := mkBB2 (mkPoint2 0 0) (mkPoint2 1 1) in
  affine2 (t2_forward t) /\ Rordered2 b /\ same_direction2 (t2_forward t) b /\ Rin2 (mkPoint2 1 (1/2)) b.
Proof. cbv zeta. unfold affine2, Rordered2, same_direction2, Rin2. cbn. repeat split; lra. Qed.
(** ** C49: degenerate look_at parameters.  The property is refuted: look_at is Ok for all finite parameters, and in every degenerate case its matrix is NaN *)
Theorem C49_degenerate_gives_nan : forall (prof : profile) (from target : Point3 R) (up : Vector3 R), ~ Indep3 up (Rsub3 target from) ->
  exists t, t3_look_at prof (XP3 from) (XP3 target) (XV3 up) = Ret (Ok t) /\
    forall p : Point3 xreal, t3_transform_point t p = mkPoint3 XNaN XNaN XNaN.
Proof. exact C49_degenerate_gives_nan_pf. Qed.
Print Assumptions C49_degenerate_gives_nan.
Theorem C49_degenerate_refuted : ~ (forall (prof : profile) (from target : Point3 R) (up : Vector3 R), ~ Indep3 up (Rsub3 target from) ->
   t3_look_at prof (XP3 from) (XP3 target) (XV3 up) = Ret Err).
Proof. exact C49_degenerate_refuted_pf. Qed.
Print Assumptions C49_degenerate_refuted.
Theorem C49_look_at_result : forall (prof : profile) (from target : Point3 R) (up : Vector3 R),
  exists t, t3_look_at prof (XP3 from) (XP3 target) (XV3 up) = Ret (Ok t) /\
    ((exists p : Point3 R, t3_transform_point t (XP3 from) = XP3 p) <-> Indep3 up (Rsub3 target from)).
Proof. exact C49_look_at_result_pf. Qed.
Print Assumptions C49_look_at_result.
