(** Theorems: C71 (transforming a bounding box in floating point).  [A] ranges over f32 and f64 on every platform, and exact reals. *)
From Coq Require Import Bool NArith ZArith Reals List Lra Lia.
From Verif Require Import Scalar Types Vector2 Vector3 Point2 Point3 Ray BoundingBox2 BoundingBox3 Transform2 Transform3 Float
  XReal Arith SpecOrder SpecFloat SpecReal SpecErr ExVals FloatBoxTrans.
Import ListNotations.
Local Open Scope R_scope.
(** ** C71: the image of the minimum corner is always inside the transformed box *)
Theorem C71_minimum_corner_inside_2d : forall (A : arith) (t : Transform2 (num A)) (b : BoundingBox2 (num A)), NoNaN2 (t2_transform_point t (bb2_min b)) ->
  bb2_is_inside (t2_transform_bb t b) (t2_transform_point t (bb2_min b)) = true.
Proof. exact C71_minimum_corner_inside_2d_pf. Qed.
Print Assumptions C71_minimum_corner_inside_2d.
Theorem C71_minimum_corner_inside_3d : forall (A : arith) (t : Transform3 (num A)) (b : BoundingBox3 (num A)), NoNaN3 (t3_transform_point t (bb3_min b)) ->
  bb3_is_inside (t3_transform_bb t b) (t3_transform_point t (bb3_min b)) = true.
Proof. exact C71_minimum_corner_inside_3d_pf. Qed.
Print Assumptions C71_minimum_corner_inside_3d.
(** ** C71: accuracy of the transformed box *)
Theorem C71_faces_accurate_2d : forall (A : arith) (t : Transform2 (num A)) (b : BoundingBox2 (num A)) (d : Dimension2), Affine3x3 (t2_forward t) -> BFinite2 b ->
  Finite2 (t2_transform_point t (bb2_min b)) -> VFinite2 (t2_transform_vector t (bb2_diagonal b)) -> BFinite2 (t2_transform_bb t b) ->
  let M := ent3 (RM3 (t2_forward t)) in let i := dim2_index d in
  let e1 := mat_apply 3 M (hom2 (RP2 (bb2_min b))) i in let e2 := mat_apply 3 M (hom2 (RP2 (bb2_max b))) i in
  let W := 2 * mat_apply 3 (mat_abs M) (hom2 (absP2 (RP2 (bb2_min b)))) i + mat_apply 3 (mat_abs M) (hom2 (absP2 (RP2 (bb2_max b)))) i in
  Rabs (real_of (coord2 (bb2_min (t2_transform_bb t b)) d) - Rmin e1 e2) <= ((1 + unit_roundoff A) ^ 4 - 1) * W + 4 * min_subnormal A /\
  Rabs (real_of (coord2 (bb2_max (t2_transform_bb t b)) d) - Rmax e1 e2) <= ((1 + unit_roundoff A) ^ 4 - 1) * W + 4 * min_subnormal A.
Proof. exact C71_faces_accurate_2d_pf. Qed.
Print Assumptions C71_faces_accurate_2d.
Theorem C71_faces_accurate_3d : forall (A : arith) (t : Transform3 (num A)) (b : BoundingBox3 (num A)) (d : Dimension3), Affine4x4 (t3_forward t) -> BFinite3 b ->
  Finite3 (t3_transform_point t (bb3_min b)) -> VFinite3 (t3_transform_vector t (bb3_diagonal b)) -> BFinite3 (t3_transform_bb t b) ->
  let M := ent4 (RM4 (t3_forward t)) in let i := dim3_index d in
  let e1 := mat_apply 4 M (hom3 (RP3 (bb3_min b))) i in let e2 := mat_apply 4 M (hom3 (RP3 (bb3_max b))) i in
  let W := 2 * mat_apply 4 (mat_abs M) (hom3 (absP3 (RP3 (bb3_min b)))) i + mat_apply 4 (mat_abs M) (hom3 (absP3 (RP3 (bb3_max b)))) i in
  Rabs (real_of (coord3 (bb3_min (t3_transform_bb t b)) d) - Rmin e1 e2) <= ((1 + unit_roundoff A) ^ 5 - 1) * W + 6 * min_subnormal A /\
  Rabs (real_of (coord3 (bb3_max (t3_transform_bb t b)) d) - Rmax e1 e2) <= ((1 + unit_roundoff A) ^ 5 - 1) * W + 6 * min_subnormal A.
Proof. exact C71_faces_accurate_3d_pf. Qed.
Print Assumptions C71_faces_accurate_3d.
(** ** C71: in floating point even the identity transform does not keep the contents of a box: the far corner is recomputed as
    min + (max - min), and the rounding of max - min can lose it *)
Definition lossy_box2 : BoundingBox2 (num A64) := mkBB2 (mkPoint2 (nd64 1 0) (d64 0 0)) (mkPoint2 (d64 1 (-60)) (d64 1 0)).
Theorem C71_identity_loses_points_refuted_2d : exists (b : BoundingBox2 (num A64)) (p : Point2 (num A64)), Ordered2 b /\ BFinite2 b /\ bb2_is_inside b p = true /\
  bb2_is_inside (t2_transform_bb t2_identity b) (t2_transform_point t2_identity p) = false.
Proof. exists lossy_box2, (bb2_max lossy_box2). repeat apply conj; try (intros []); vm_compute; reflexivity. Qed.
Print Assumptions C71_identity_loses_points_refuted_2d.
Definition lossy_box3 : BoundingBox3 (num A64) := mkBB3 (mkPoint3 (nd64 1 0) (d64 0 0) (d64 0 0)) (mkPoint3 (d64 1 (-60)) (d64 1 0) (d64 1 0)).
Theorem C71_identity_loses_points_refuted_3d : exists (b : BoundingBox3 (num A64)) (p : Point3 (num A64)), Ordered3 b /\ BFinite3 b /\ bb3_is_inside b p = true /\
  bb3_is_inside (t3_transform_bb t3_identity b) (t3_transform_point t3_identity p) = false.
Proof. exists lossy_box3, (bb3_max lossy_box3). repeat apply conj; try (intros []); vm_compute; reflexivity. Qed.
Print Assumptions C71_identity_loses_points_refuted_3d.
Example C71_example_2d : let t : Transform2 (num A64) := t2_and_then (t2_scale (d64 3 0) (nd64 2 0)) (t2_translate (mkVector2 (d64 1 0) (d64 2 0))) in
  Affine3x3 (t2_forward t) /\ BFinite2 boxA2 /\ Finite2 (t2_transform_point t (bb2_min boxA2)) /\ VFinite2 (t2_transform_vector t (bb2_diagonal boxA2)) /\ BFinite2 (t2_transform_bb t boxA2).
Proof. cbv zeta. repeat apply conj; try (intros []); vm_compute; reflexivity. Qed.
Example C71_example_3d : let t : Transform3 (num A64) := t3_and_then (t3_scale (d64 3 0) (nd64 2 0) (d64 1 0)) (t3_translate (mkVector3 (d64 1 0) (d64 2 0) (d64 1 0))) in
  Affine4x4 (t3_forward t) /\ BFinite3 boxA3 /\ Finite3 (t3_transform_point t (bb3_min boxA3)) /\ VFinite3 (t3_transform_vector t (bb3_diagonal boxA3)) /\ BFinite3 (t3_transform_bb t boxA3).
Proof. cbv zeta. repeat apply conj; try (intros []); vm_compute; reflexivity. Qed.
