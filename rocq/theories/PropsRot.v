(** Property theorems in exact arithmetic: matrices acting on points and vectors (C51), rotations (C41, C42). *)
From Coq Require Import Bool NArith ZArith Reals List Lra.
From Verif Require Import Scalar Types Vector2 Vector3 Point2 Point3 Ray Transform2 Transform3
  XReal Arith SpecOrder SpecStruct SpecReal ExactRot.
Import ListNotations.
Local Open Scope R_scope.
(** ** C51: points transform projectively, vectors linearly *)
Theorem C51_point_projective_2d : forall (m : Matrix3x3 R) (p : Point2 R), weight2 m p <> 0 ->
  m3_mul_point (XM3 m) (XP2 p) = XP2 (dehom2 (mat_apply 3 (ent3 m) (hom2 p))).
Proof. exact C51_point_projective_2d_pf. Qed.
Print Assumptions C51_point_projective_2d.
Theorem C51_point_projective_3d : forall (m : Matrix4x4 R) (p : Point3 R), weight3 m p <> 0 ->
  m4_mul_point (XM4 m) (XP3 p) = XP3 (dehom3 (mat_apply 4 (ent4 m) (hom3 p))).
Proof. exact C51_point_projective_3d_pf. Qed.
Print Assumptions C51_point_projective_3d.
Theorem C51_vector_linear_2d : forall (m : Matrix3x3 R) (v : Vector2 R),
  m3_mul_vector (XM3 m) (XV2 v) =
  XV2 (mkVector2 (mat_apply 3 (ent3 m) (dir2 v) 0) (mat_apply 3 (ent3 m) (dir2 v) 1)).
Proof. exact C51_vector_linear_2d_pf. Qed.
Print Assumptions C51_vector_linear_2d.
Theorem C51_vector_linear_3d : forall (m : Matrix4x4 R) (v : Vector3 R),
  m4_mul_vector (XM4 m) (XV3 v) =
  XV3 (mkVector3 (mat_apply 4 (ent4 m) (dir3 v) 0) (mat_apply 4 (ent4 m) (dir3 v) 1) (mat_apply 4 (ent4 m) (dir3 v) 2)).
Proof. exact C51_vector_linear_3d_pf. Qed.
Print Assumptions C51_vector_linear_3d.
Theorem C51_vector_laws_2d : forall (m : Matrix3x3 R) (u v : Vector2 R) (s : R),
  m3_mul_vector (XM3 m) (v2_add (XV2 u) (XV2 v)) = v2_add (m3_mul_vector (XM3 m) (XV2 u)) (m3_mul_vector (XM3 m) (XV2 v)) /\
  m3_mul_vector (XM3 m) (v2_mul (XV2 u) (Fin s)) = v2_mul (m3_mul_vector (XM3 m) (XV2 u)) (Fin s).
Proof. exact C51_vector_laws_2d_pf. Qed.
Print Assumptions C51_vector_laws_2d.
Theorem C51_vector_laws_3d : forall (m : Matrix4x4 R) (u v : Vector3 R) (s : R),
  m4_mul_vector (XM4 m) (v3_add (XV3 u) (XV3 v)) = v3_add (m4_mul_vector (XM4 m) (XV3 u)) (m4_mul_vector (XM4 m) (XV3 v)) /\
  m4_mul_vector (XM4 m) (v3_mul (XV3 u) (Fin s)) = v3_mul (m4_mul_vector (XM4 m) (XV3 u)) (Fin s).
Proof. exact C51_vector_laws_3d_pf. Qed.
Print Assumptions C51_vector_laws_3d.
Theorem C51_affine_difference_2d : forall (m : Matrix3x3 R) (p q : Point2 R), affine2 m ->
  p2_sub (m3_mul_point (XM3 m) (XP2 p)) (m3_mul_point (XM3 m) (XP2 q)) = m3_mul_vector (XM3 m) (p2_sub (XP2 p) (XP2 q)).
Proof. exact C51_affine_difference_2d_pf. Qed.
Print Assumptions C51_affine_difference_2d.
Theorem C51_affine_difference_3d : forall (m : Matrix4x4 R) (p q : Point3 R), affine3 m ->
  p3_sub (m4_mul_point (XM4 m) (XP3 p)) (m4_mul_point (XM4 m) (XP3 q)) = m4_mul_vector (XM4 m) (p3_sub (XP3 p) (XP3 q)).
Proof. exact C51_affine_difference_3d_pf. Qed.
Print Assumptions C51_affine_difference_3d.
Example C51_example : weight2 (mkM3 1 2 3 4 5 6 1 0 2) (mkPoint2 3 4) <> 0 /\ affine2 (mkM3 1 2 3 4 5 6 0 0 1) /\
  weight3 (mkM4 1 2 3 4 5 6 7 8 9 10 11 12 1 0 0 1) (mkPoint3 3 4 5) <> 0 /\ affine3 (mkM4 1 2 3 4 5 6 7 8 9 10 11 12 0 0 0 1).
Proof. cbv -[Rplus Rmult Rminus Ropp IZR not]. repeat split; lra. Qed.
(** ** C41: rotations *)
Theorem C41_rotate_matrix : forall a : R,
  (m3_rotate (Fin a) = XM3 (mkM3 (cos a) (- sin a) 0 (sin a) (cos a) 0 0 0 1)) /\
  (m4_rotate_x (Fin a) = XM4 (mkM4 1 0 0 0  0 (cos a) (- sin a) 0  0 (sin a) (cos a) 0  0 0 0 1)) /\
  (m4_rotate_y (Fin a) = XM4 (mkM4 (cos a) 0 (sin a) 0  0 1 0 0  (- sin a) 0 (cos a) 0  0 0 0 1)) /\
  (m4_rotate_z (Fin a) = XM4 (mkM4 (cos a) (- sin a) 0 0  (sin a) (cos a) 0 0  0 0 1 0  0 0 0 1)).
Proof. exact C41_rotate_matrix_pf. Qed.
Print Assumptions C41_rotate_matrix.
Theorem C41_determinant_one : forall a : R,
  (exists m, m3_rotate (Fin a) = XM3 m /\ mat_det 3 (ent3 m) = 1) /\
  (exists m, m4_rotate_x (Fin a) = XM4 m /\ mat_det 4 (ent4 m) = 1) /\
  (exists m, m4_rotate_y (Fin a) = XM4 m /\ mat_det 4 (ent4 m) = 1) /\
  (exists m, m4_rotate_z (Fin a) = XM4 m /\ mat_det 4 (ent4 m) = 1).
Proof. exact C41_determinant_one_pf. Qed.
Print Assumptions C41_determinant_one.
Theorem C41_rotation_isometry_2d : forall (a : R) (u v : Vector2 R) (p q : Point2 R),
  let t := t2_rotate (Fin a) in
  v2_dot (t2_transform_vector t (XV2 u)) (t2_transform_vector t (XV2 v)) = v2_dot (XV2 u) (XV2 v) /\
  v2_length (t2_transform_vector t (XV2 u)) = v2_length (XV2 u) /\
  p2_distance (t2_transform_point t (XP2 p)) (t2_transform_point t (XP2 q)) = p2_distance (XP2 p) (XP2 q) /\
  t2_transform_point t p2_origin = p2_origin.
Proof. exact C41_rotation_isometry_2d_pf. Qed.
Print Assumptions C41_rotation_isometry_2d.
Theorem C41_rotation_isometry_x : forall (a : R) (u v : Vector3 R) (p q : Point3 R),
  let t := t3_rotate_x (Fin a) in
  v3_dot (t3_transform_vector t (XV3 u)) (t3_transform_vector t (XV3 v)) = v3_dot (XV3 u) (XV3 v) /\
  v3_cross (t3_transform_vector t (XV3 u)) (t3_transform_vector t (XV3 v)) = t3_transform_vector t (v3_cross (XV3 u) (XV3 v)) /\
  v3_length (t3_transform_vector t (XV3 u)) = v3_length (XV3 u) /\
  p3_distance (t3_transform_point t (XP3 p)) (t3_transform_point t (XP3 q)) = p3_distance (XP3 p) (XP3 q) /\
  t3_transform_point t p3_origin = p3_origin /\ t3_transform_vector t v3_x_axis = v3_x_axis.
Proof. exact C41_rotation_isometry_x_pf. Qed.
Print Assumptions C41_rotation_isometry_x.
Theorem C41_rotation_isometry_y : forall (a : R) (u v : Vector3 R) (p q : Point3 R),
  let t := t3_rotate_y (Fin a) in
  v3_dot (t3_transform_vector t (XV3 u)) (t3_transform_vector t (XV3 v)) = v3_dot (XV3 u) (XV3 v) /\
  v3_cross (t3_transform_vector t (XV3 u)) (t3_transform_vector t (XV3 v)) = t3_transform_vector t (v3_cross (XV3 u) (XV3 v)) /\
  v3_length (t3_transform_vector t (XV3 u)) = v3_length (XV3 u) /\
  p3_distance (t3_transform_point t (XP3 p)) (t3_transform_point t (XP3 q)) = p3_distance (XP3 p) (XP3 q) /\
  t3_transform_point t p3_origin = p3_origin /\ t3_transform_vector t v3_y_axis = v3_y_axis.
Proof. exact C41_rotation_isometry_y_pf. Qed.
Print Assumptions C41_rotation_isometry_y.
Theorem C41_rotation_isometry_z : forall (a : R) (u v : Vector3 R) (p q : Point3 R),
  let t := t3_rotate_z (Fin a) in
  v3_dot (t3_transform_vector t (XV3 u)) (t3_transform_vector t (XV3 v)) = v3_dot (XV3 u) (XV3 v) /\
  v3_cross (t3_transform_vector t (XV3 u)) (t3_transform_vector t (XV3 v)) = t3_transform_vector t (v3_cross (XV3 u) (XV3 v)) /\
  v3_length (t3_transform_vector t (XV3 u)) = v3_length (XV3 u) /\
  p3_distance (t3_transform_point t (XP3 p)) (t3_transform_point t (XP3 q)) = p3_distance (XP3 p) (XP3 q) /\
  t3_transform_point t p3_origin = p3_origin /\ t3_transform_vector t v3_z_axis = v3_z_axis.
Proof. exact C41_rotation_isometry_z_pf. Qed.
Print Assumptions C41_rotation_isometry_z.
Theorem C41_compose_angles : forall a b : R,
  m3_mul (m3_rotate (Fin a)) (m3_rotate (Fin b)) = m3_rotate (Fin (a + b)) /\
  m4_mul (m4_rotate_x (Fin a)) (m4_rotate_x (Fin b)) = m4_rotate_x (Fin (a + b)) /\
  m4_mul (m4_rotate_y (Fin a)) (m4_rotate_y (Fin b)) = m4_rotate_y (Fin (a + b)) /\
  m4_mul (m4_rotate_z (Fin a)) (m4_rotate_z (Fin b)) = m4_rotate_z (Fin (a + b)).
Proof. exact C41_compose_angles_pf. Qed.
Print Assumptions C41_compose_angles.
Theorem C41_zero_angle : m3_rotate (Fin 0) = m3_identity /\ m4_rotate_x (Fin 0) = m4_identity /\
  m4_rotate_y (Fin 0) = m4_identity /\ m4_rotate_z (Fin 0) = m4_identity.
Proof. exact C41_zero_angle_pf. Qed.
Print Assumptions C41_zero_angle.
Theorem C41_orientation : let right := Fin (PI / 2) in
  t2_transform_vector (t2_rotate right) v2_x_axis = v2_y_axis /\
  t3_transform_vector (t3_rotate_x right) v3_y_axis = v3_z_axis /\
  t3_transform_vector (t3_rotate_y right) v3_z_axis = v3_x_axis /\
  t3_transform_vector (t3_rotate_z right) v3_x_axis = v3_y_axis.
Proof. exact C41_orientation_pf. Qed.
Print Assumptions C41_orientation.
Theorem C41_inverse_is_negative_angle : forall a : R,
  t2_inverse (t2_rotate (Fin a)) = t2_rotate (Fin (- a)) /\
  t3_inverse (t3_rotate_x (Fin a)) = t3_rotate_x (Fin (- a)) /\
  t3_inverse (t3_rotate_y (Fin a)) = t3_rotate_y (Fin (- a)) /\
  t3_inverse (t3_rotate_z (Fin a)) = t3_rotate_z (Fin (- a)).
Proof. exact C41_inverse_is_negative_angle_pf. Qed.
Print Assumptions C41_inverse_is_negative_angle.
(** ** C42: rotation about an arbitrary axis *)
Theorem C42_rodrigues : forall (axis v : Vector3 R) (a : R), axis <> Rzero3 ->
  let k := v3_normalize (XV3 axis) in
  t3_transform_vector (t3_rotate_axis (XV3 axis) (Fin a)) (XV3 v) =
  v3_add (v3_add (v3_mul (XV3 v) (Fin (cos a))) (v3_mul (v3_cross k (XV3 v)) (Fin (sin a))))
         (v3_mul k (smul (v3_dot k (XV3 v)) (Fin (1 - cos a)))).
Proof. exact C42_rodrigues_pf. Qed.
Print Assumptions C42_rodrigues.
Theorem C42_axis_rotation_isometry : forall (axis : Vector3 R) (a : R) (u v : Vector3 R) (p q : Point3 R), axis <> Rzero3 ->
  let t := t3_rotate_axis (XV3 axis) (Fin a) in
  v3_dot (t3_transform_vector t (XV3 u)) (t3_transform_vector t (XV3 v)) = v3_dot (XV3 u) (XV3 v) /\
  v3_cross (t3_transform_vector t (XV3 u)) (t3_transform_vector t (XV3 v)) = t3_transform_vector t (v3_cross (XV3 u) (XV3 v)) /\
  p3_distance (t3_transform_point t (XP3 p)) (t3_transform_point t (XP3 q)) = p3_distance (XP3 p) (XP3 q) /\
  t3_transform_point t p3_origin = p3_origin /\
  t3_transform_vector t (XV3 axis) = XV3 axis.
Proof. exact C42_axis_rotation_isometry_pf. Qed.
Print Assumptions C42_axis_rotation_isometry.
Theorem C42_axis_rotation_determinant : forall (axis : Vector3 R) (a : R), axis <> Rzero3 ->
  exists m, m4_rotate_axis (XV3 axis) (Fin a) = XM4 m /\ mat_det 4 (ent4 m) = 1 /\
    t3_inv (t3_rotate_axis (XV3 axis) (Fin a)) = XM4 (mkM4 (m4_0 m) (m4_4 m) (m4_8 m) (m4_12 m) (m4_1 m) (m4_5 m) (m4_9 m) (m4_13 m)
                                                          (m4_2 m) (m4_6 m) (m4_10 m) (m4_14 m) (m4_3 m) (m4_7 m) (m4_11 m) (m4_15 m)).
Proof. exact C42_axis_rotation_determinant_pf. Qed.
Print Assumptions C42_axis_rotation_determinant.
Theorem C42_coordinate_axes : forall a s : R, 0 < s ->
  t3_rotate_axis (XV3 (mkVector3 s 0 0)) (Fin a) = t3_rotate_x (Fin a) /\
  t3_rotate_axis (XV3 (mkVector3 0 s 0)) (Fin a) = t3_rotate_y (Fin a) /\
  t3_rotate_axis (XV3 (mkVector3 0 0 s)) (Fin a) = t3_rotate_z (Fin a).
Proof. exact C42_coordinate_axes_pf. Qed.
Print Assumptions C42_coordinate_axes.
Theorem C42_direction_only : forall (axis : Vector3 R) (a s : R), axis <> Rzero3 -> 0 < s ->
  t3_rotate_axis (v3_mul (XV3 axis) (Fin s)) (Fin a) = t3_rotate_axis (XV3 axis) (Fin a).
Proof. exact C42_direction_only_pf. Qed.
Print Assumptions C42_direction_only.
Example C42_example : mkVector3 1 2 2 <> Rzero3.
Proof. intros H; injection H; lra. Qed.
