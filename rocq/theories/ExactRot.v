(** Proofs of the exact-arithmetic properties of rotations and of matrices acting on points and vectors. *)
From Coq Require Import Bool NArith ZArith Reals List Lra Lia Psatz.
From Flocq Require Import Core.Raux.
From Verif Require Import Scalar Types Vector2 Vector3 Point2 Point3 Ray BoundingBox2 BoundingBox3 Transform2 Transform3
  XReal OrdLaws Arith SpecOrder SpecStruct SpecReal XTac ExactBase ExactVec Comm MatComm Struct Struct2 Adj4 ExactMat.
Import ListNotations.
Local Open Scope R_scope.
Lemma xm2_point m p : weight2 m p <> 0 -> m3_mul_point (XM3 m) (XP2 p) = XP2 (img2 m p).
Proof.
  intros H. destruct m as [a0 a1 a2 a3 a4 a5 a6 a7 a8], p as [x y].
  assert (E : weight2 (mkM3 a0 a1 a2 a3 a4 a5 a6 a7 a8) (mkPoint2 x y) = a6 * x + a7 * y + a8) by (mred; ring).
  unfold img2, dehom2. fold (weight2 (mkM3 a0 a1 a2 a3 a4 a5 a6 a7 a8) (mkPoint2 x y)).
  rewrite E in *. xcbv. rewrite !xdiv_fin by assumption. mred. xeqs; f_equal; ring.
Qed.
Lemma xm3_point m p : weight3 m p <> 0 -> m4_mul_point (XM4 m) (XP3 p) = XP3 (img3 m p).
Proof.
  intros H. destruct m as [a0 a1 a2 a3 a4 a5 a6 a7 a8 a9 a10 a11 a12 a13 a14 a15], p as [x y z].
  set (M := mkM4 a0 a1 a2 a3 a4 a5 a6 a7 a8 a9 a10 a11 a12 a13 a14 a15) in *.
  assert (E : weight3 M (mkPoint3 x y z) = a12 * x + a13 * y + a14 * z + a15) by (unfold M; mred; ring).
  unfold img3, dehom3. fold (weight3 M (mkPoint3 x y z)).
  rewrite E in *. unfold M. xcbv. rewrite !xdiv_fin by assumption. mred. xeqs; f_equal; ring.
Qed.
Lemma C51_point_projective_2d_pf : forall (m : Matrix3x3 R) (p : Point2 R), weight2 m p <> 0 ->
  m3_mul_point (XM3 m) (XP2 p) = XP2 (dehom2 (mat_apply 3 (ent3 m) (hom2 p))).
Proof.
  exact xm2_point.
Qed.
Lemma C51_point_projective_3d_pf : forall (m : Matrix4x4 R) (p : Point3 R), weight3 m p <> 0 ->
  m4_mul_point (XM4 m) (XP3 p) = XP3 (dehom3 (mat_apply 4 (ent4 m) (hom3 p))).
Proof.
  exact xm3_point.
Qed.
Lemma C51_vector_linear_2d_pf : forall (m : Matrix3x3 R) (v : Vector2 R),
  m3_mul_vector (XM3 m) (XV2 v) =
  XV2 (mkVector2 (mat_apply 3 (ent3 m) (dir2 v) 0) (mat_apply 3 (ent3 m) (dir2 v) 1)).
Proof.
  intros m v. destruct m, v. xcbv. mred. xeqs; ring.
Qed.
Lemma C51_vector_linear_3d_pf : forall (m : Matrix4x4 R) (v : Vector3 R),
  m4_mul_vector (XM4 m) (XV3 v) =
  XV3 (mkVector3 (mat_apply 4 (ent4 m) (dir3 v) 0) (mat_apply 4 (ent4 m) (dir3 v) 1) (mat_apply 4 (ent4 m) (dir3 v) 2)).
Proof.
  intros m v. destruct m, v. xcbv. mred. xeqs; ring.
Qed.
Lemma C51_vector_laws_2d_pf : forall (m : Matrix3x3 R) (u v : Vector2 R) (s : R),
  m3_mul_vector (XM3 m) (v2_add (XV2 u) (XV2 v)) = v2_add (m3_mul_vector (XM3 m) (XV2 u)) (m3_mul_vector (XM3 m) (XV2 v)) /\
  m3_mul_vector (XM3 m) (v2_mul (XV2 u) (Fin s)) = v2_mul (m3_mul_vector (XM3 m) (XV2 u)) (Fin s).
Proof.
  intros m u v s. split; xring.
Qed.
Lemma C51_vector_laws_3d_pf : forall (m : Matrix4x4 R) (u v : Vector3 R) (s : R),
  m4_mul_vector (XM4 m) (v3_add (XV3 u) (XV3 v)) = v3_add (m4_mul_vector (XM4 m) (XV3 u)) (m4_mul_vector (XM4 m) (XV3 v)) /\
  m4_mul_vector (XM4 m) (v3_mul (XV3 u) (Fin s)) = v3_mul (m4_mul_vector (XM4 m) (XV3 u)) (Fin s).
Proof.
  intros m u v s. split; xring.
Qed.
Lemma affine_weight2 m p : affine2 m -> weight2 m p = 1.
Proof. destruct m, p. unfold affine2; cbn. intros H. mred. decompose [and] H. subst. ring. Qed.
Lemma xm2_point_affine m p : affine2 m -> m3_mul_point (XM3 m) (XP2 p) = XP2 (img2 m p).
Proof. intros H. apply xm2_point. rewrite affine_weight2 by assumption. lra. Qed.
Lemma affine_weight3 m p : affine3 m -> weight3 m p = 1.
Proof. destruct m, p. unfold affine3; cbn. intros H. mred. decompose [and] H. subst. ring. Qed.
Lemma xm3_point_affine m p : affine3 m -> m4_mul_point (XM4 m) (XP3 p) = XP3 (img3 m p).
Proof. intros H. apply xm3_point. rewrite affine_weight3 by assumption. lra. Qed.
Lemma img2_affine m p : affine2 m -> img2 m p = mkPoint2 (m3_0 m * p2x p + m3_1 m * p2y p + m3_2 m) (m3_3 m * p2x p + m3_4 m * p2y p + m3_5 m).
Proof. intros H. destruct m, p. unfold affine2 in H; cbn in H. decompose [and] H. subst. mred. f_equal; field. Qed.
Lemma img3_affine m p : affine3 m -> img3 m p =
  mkPoint3 (m4_0 m * p3x p + m4_1 m * p3y p + m4_2 m * p3z p + m4_3 m)
           (m4_4 m * p3x p + m4_5 m * p3y p + m4_6 m * p3z p + m4_7 m)
           (m4_8 m * p3x p + m4_9 m * p3y p + m4_10 m * p3z p + m4_11 m).
Proof. intros H. destruct m, p. unfold affine3 in H; cbn in H. decompose [and] H. subst. mred. f_equal; field. Qed.
Lemma C51_affine_difference_2d_pf : forall (m : Matrix3x3 R) (p q : Point2 R), affine2 m ->
  p2_sub (m3_mul_point (XM3 m) (XP2 p)) (m3_mul_point (XM3 m) (XP2 q)) = m3_mul_vector (XM3 m) (p2_sub (XP2 p) (XP2 q)).
Proof.
  intros m p q H. rewrite !xm2_point_affine, !img2_affine by assumption. xring.
Qed.
Lemma C51_affine_difference_3d_pf : forall (m : Matrix4x4 R) (p q : Point3 R), affine3 m ->
  p3_sub (m4_mul_point (XM4 m) (XP3 p)) (m4_mul_point (XM4 m) (XP3 q)) = m4_mul_vector (XM4 m) (p3_sub (XP3 p) (XP3 q)).
Proof.
  intros m p q H. rewrite !xm3_point_affine, !img3_affine by assumption. xring.
Qed.
Lemma sc1 a : sin a * sin a + cos a * cos a = 1.
Proof. pose proof (sin2_cos2 a) as H. unfold Rsqr in H. exact H. Qed.
Ltac rot := intros; cbv zeta; xdestr; xcbv; cbv beta iota delta [xsin_cos]; xcbv; meqs.
Lemma scm a : sin a * sin a = 1 - cos a * cos a.
Proof. pose proof (sc1 a). lra. Qed.
Lemma C41_rotate_matrix_pf : forall a : R,
  (m3_rotate (Fin a) = XM3 (mkM3 (cos a) (- sin a) 0 (sin a) (cos a) 0 0 0 1)) /\
  (m4_rotate_x (Fin a) = XM4 (mkM4 1 0 0 0  0 (cos a) (- sin a) 0  0 (sin a) (cos a) 0  0 0 0 1)) /\
  (m4_rotate_y (Fin a) = XM4 (mkM4 (cos a) 0 (sin a) 0  0 1 0 0  (- sin a) 0 (cos a) 0  0 0 0 1)) /\
  (m4_rotate_z (Fin a) = XM4 (mkM4 (cos a) (- sin a) 0 0  (sin a) (cos a) 0 0  0 0 1 0  0 0 0 1)).
Proof.
  intros a. split; [|split; [|split]]; reflexivity.
Qed.
Lemma rot_det (a s c : R) : s * s + c * c = 1 ->
  mat_det 3 (ent3 (mkM3 c (- s) 0 s c 0 0 0 1)) = 1 /\
  mat_det 4 (ent4 (mkM4 1 0 0 0  0 c (- s) 0  0 s c 0  0 0 0 1)) = 1 /\
  mat_det 4 (ent4 (mkM4 c 0 s 0  0 1 0 0  (- s) 0 c 0  0 0 0 1)) = 1 /\
  mat_det 4 (ent4 (mkM4 c (- s) 0 0  s c 0 0  0 0 1 0  0 0 0 1)) = 1.
Proof. intros H. assert (E : s * s = 1 - c * c) by lra. split; [|split; [|split]]; mred; ring [E]. Qed.
Lemma C41_determinant_one_pf : forall a : R,
  (exists m, m3_rotate (Fin a) = XM3 m /\ mat_det 3 (ent3 m) = 1) /\
  (exists m, m4_rotate_x (Fin a) = XM4 m /\ mat_det 4 (ent4 m) = 1) /\
  (exists m, m4_rotate_y (Fin a) = XM4 m /\ mat_det 4 (ent4 m) = 1) /\
  (exists m, m4_rotate_z (Fin a) = XM4 m /\ mat_det 4 (ent4 m) = 1).
Proof.
  intros a. destruct (C41_rotate_matrix_pf a) as (H1 & H2 & H3 & H4).
  destruct (rot_det a (sin a) (cos a) (sc1 a)) as (D1 & D2 & D3 & D4). repeat match goal with |- _ /\ _ => split end; eexists; split; eassumption.
Qed.
Lemma C41_rotation_isometry_2d_pf : forall (a : R) (u v : Vector2 R) (p q : Point2 R),
  let t := t2_rotate (Fin a) in
  v2_dot (t2_transform_vector t (XV2 u)) (t2_transform_vector t (XV2 v)) = v2_dot (XV2 u) (XV2 v) /\
  v2_length (t2_transform_vector t (XV2 u)) = v2_length (XV2 u) /\
  p2_distance (t2_transform_point t (XP2 p)) (t2_transform_point t (XP2 q)) = p2_distance (XP2 p) (XP2 q) /\
  t2_transform_point t p2_origin = p2_origin.
Proof.
  intros a u v p q t.
  assert (D : forall u v : Vector2 R, v2_dot (t2_transform_vector t (XV2 u)) (t2_transform_vector t (XV2 v)) = v2_dot (XV2 u) (XV2 v)).
  { unfold t. clear. intros u v. rot. ring [(scm a)]. }
  set (M := mkM3 (cos a) (- sin a) 0 (sin a) (cos a) 0 0 0 1) in *.
  assert (P : forall p : Point2 R, t2_transform_point t (XP2 p) = XP2 (img2 M p)).
  { intros r. refine (xm2_point_affine M r _). repeat split. }
  split; [apply D|]. split; [|split].
  - unfold v2_length. now rewrite D.
  - unfold p2_distance. unfold v2_length.
    replace (p2_sub (t2_transform_point t (XP2 q)) (t2_transform_point t (XP2 p))) with (t2_transform_vector t (p2_sub (XP2 q) (XP2 p))).
    + rewrite !xp2_sub. now rewrite D.
    + symmetry. refine (C51_affine_difference_2d_pf M q p _). repeat split.
  - change p2_origin with (XP2 (mkPoint2 0 0)) at 1. rewrite P, img2_affine by repeat split. unfold M. cbn. unfold XP2. cbn. unfold p2_origin, p2_new. cbn. f_equal; apply Fin_eq; ring.
Qed.
Lemma C41_rotation_isometry_x_pf : forall (a : R) (u v : Vector3 R) (p q : Point3 R),
  let t := t3_rotate_x (Fin a) in
  v3_dot (t3_transform_vector t (XV3 u)) (t3_transform_vector t (XV3 v)) = v3_dot (XV3 u) (XV3 v) /\
  v3_cross (t3_transform_vector t (XV3 u)) (t3_transform_vector t (XV3 v)) = t3_transform_vector t (v3_cross (XV3 u) (XV3 v)) /\
  v3_length (t3_transform_vector t (XV3 u)) = v3_length (XV3 u) /\
  p3_distance (t3_transform_point t (XP3 p)) (t3_transform_point t (XP3 q)) = p3_distance (XP3 p) (XP3 q) /\
  t3_transform_point t p3_origin = p3_origin /\ t3_transform_vector t v3_x_axis = v3_x_axis.
Proof.
  intros a u v p q t.
  assert (D : forall u v : Vector3 R, v3_dot (t3_transform_vector t (XV3 u)) (t3_transform_vector t (XV3 v)) = v3_dot (XV3 u) (XV3 v)).
  { unfold t. clear. intros u v. rot. ring [(scm a)]. }
  set (M := mkM4 1 0 0 0  0 (cos a) (- sin a) 0  0 (sin a) (cos a) 0  0 0 0 1) in *.
  assert (P : forall p : Point3 R, t3_transform_point t (XP3 p) = XP3 (img3 M p)).
  { intros r. refine (xm3_point_affine M r _). repeat split. }
  split; [apply D|]. split; [|split; [|split; [|split]]].
  - unfold t. rot; ring [(scm a)].
  - unfold v3_length. now rewrite D.
  - unfold p3_distance. unfold v3_length.
    replace (p3_sub (t3_transform_point t (XP3 q)) (t3_transform_point t (XP3 p))) with (t3_transform_vector t (p3_sub (XP3 q) (XP3 p))).
    + rewrite !xp3_sub. now rewrite D.
    + symmetry. refine (C51_affine_difference_3d_pf M q p _). repeat split.
  - change p3_origin with (XP3 (mkPoint3 0 0 0)) at 1. rewrite P, img3_affine by repeat split. unfold M. cbn. unfold XP3. cbn. unfold p3_origin, p3_new. cbn. f_equal; apply Fin_eq; ring.
  - unfold t. rot; ring.
Qed.
Lemma C41_rotation_isometry_y_pf : forall (a : R) (u v : Vector3 R) (p q : Point3 R),
  let t := t3_rotate_y (Fin a) in
  v3_dot (t3_transform_vector t (XV3 u)) (t3_transform_vector t (XV3 v)) = v3_dot (XV3 u) (XV3 v) /\
  v3_cross (t3_transform_vector t (XV3 u)) (t3_transform_vector t (XV3 v)) = t3_transform_vector t (v3_cross (XV3 u) (XV3 v)) /\
  v3_length (t3_transform_vector t (XV3 u)) = v3_length (XV3 u) /\
  p3_distance (t3_transform_point t (XP3 p)) (t3_transform_point t (XP3 q)) = p3_distance (XP3 p) (XP3 q) /\
  t3_transform_point t p3_origin = p3_origin /\ t3_transform_vector t v3_y_axis = v3_y_axis.
Proof.
  intros a u v p q t.
  assert (D : forall u v : Vector3 R, v3_dot (t3_transform_vector t (XV3 u)) (t3_transform_vector t (XV3 v)) = v3_dot (XV3 u) (XV3 v)).
  { unfold t. clear. intros u v. rot. ring [(scm a)]. }
  set (M := mkM4 (cos a) 0 (sin a) 0  0 1 0 0  (- sin a) 0 (cos a) 0  0 0 0 1) in *.
  assert (P : forall p : Point3 R, t3_transform_point t (XP3 p) = XP3 (img3 M p)).
  { intros r. refine (xm3_point_affine M r _). repeat split. }
  split; [apply D|]. split; [|split; [|split; [|split]]].
  - unfold t. rot; ring [(scm a)].
  - unfold v3_length. now rewrite D.
  - unfold p3_distance. unfold v3_length.
    replace (p3_sub (t3_transform_point t (XP3 q)) (t3_transform_point t (XP3 p))) with (t3_transform_vector t (p3_sub (XP3 q) (XP3 p))).
    + rewrite !xp3_sub. now rewrite D.
    + symmetry. refine (C51_affine_difference_3d_pf M q p _). repeat split.
  - change p3_origin with (XP3 (mkPoint3 0 0 0)) at 1. rewrite P, img3_affine by repeat split. unfold M. cbn. unfold XP3. cbn. unfold p3_origin, p3_new. cbn. f_equal; apply Fin_eq; ring.
  - unfold t. rot; ring.
Qed.
Lemma C41_rotation_isometry_z_pf : forall (a : R) (u v : Vector3 R) (p q : Point3 R),
  let t := t3_rotate_z (Fin a) in
  v3_dot (t3_transform_vector t (XV3 u)) (t3_transform_vector t (XV3 v)) = v3_dot (XV3 u) (XV3 v) /\
  v3_cross (t3_transform_vector t (XV3 u)) (t3_transform_vector t (XV3 v)) = t3_transform_vector t (v3_cross (XV3 u) (XV3 v)) /\
  v3_length (t3_transform_vector t (XV3 u)) = v3_length (XV3 u) /\
  p3_distance (t3_transform_point t (XP3 p)) (t3_transform_point t (XP3 q)) = p3_distance (XP3 p) (XP3 q) /\
  t3_transform_point t p3_origin = p3_origin /\ t3_transform_vector t v3_z_axis = v3_z_axis.
Proof.
  intros a u v p q t.
  assert (D : forall u v : Vector3 R, v3_dot (t3_transform_vector t (XV3 u)) (t3_transform_vector t (XV3 v)) = v3_dot (XV3 u) (XV3 v)).
  { unfold t. clear. intros u v. rot. ring [(scm a)]. }
  set (M := mkM4 (cos a) (- sin a) 0 0  (sin a) (cos a) 0 0  0 0 1 0  0 0 0 1) in *.
  assert (P : forall p : Point3 R, t3_transform_point t (XP3 p) = XP3 (img3 M p)).
  { intros r. refine (xm3_point_affine M r _). repeat split. }
  split; [apply D|]. split; [|split; [|split; [|split]]].
  - unfold t. rot; ring [(scm a)].
  - unfold v3_length. now rewrite D.
  - unfold p3_distance. unfold v3_length.
    replace (p3_sub (t3_transform_point t (XP3 q)) (t3_transform_point t (XP3 p))) with (t3_transform_vector t (p3_sub (XP3 q) (XP3 p))).
    + rewrite !xp3_sub. now rewrite D.
    + symmetry. refine (C51_affine_difference_3d_pf M q p _). repeat split.
  - change p3_origin with (XP3 (mkPoint3 0 0 0)) at 1. rewrite P, img3_affine by repeat split. unfold M. cbn. unfold XP3. cbn. unfold p3_origin, p3_new. cbn. f_equal; apply Fin_eq; ring.
  - unfold t. rot; ring.
Qed.
Lemma C41_compose_angles_pf : forall a b : R,
  m3_mul (m3_rotate (Fin a)) (m3_rotate (Fin b)) = m3_rotate (Fin (a + b)) /\
  m4_mul (m4_rotate_x (Fin a)) (m4_rotate_x (Fin b)) = m4_rotate_x (Fin (a + b)) /\
  m4_mul (m4_rotate_y (Fin a)) (m4_rotate_y (Fin b)) = m4_rotate_y (Fin (a + b)) /\
  m4_mul (m4_rotate_z (Fin a)) (m4_rotate_z (Fin b)) = m4_rotate_z (Fin (a + b)).
Proof.
  intros a b. split; [|split; [|split]]; rot; rewrite ?sin_plus, ?cos_plus; ring.
Qed.
Lemma C41_zero_angle_pf : m3_rotate (Fin 0) = m3_identity /\ m4_rotate_x (Fin 0) = m4_identity /\
  m4_rotate_y (Fin 0) = m4_identity /\ m4_rotate_z (Fin 0) = m4_identity.
Proof.
  split; [|split; [|split]]; rot; rewrite ?sin_0, ?cos_0; ring.
Qed.
Lemma C41_orientation_pf : let right := Fin (PI / 2) in
  t2_transform_vector (t2_rotate right) v2_x_axis = v2_y_axis /\
  t3_transform_vector (t3_rotate_x right) v3_y_axis = v3_z_axis /\
  t3_transform_vector (t3_rotate_y right) v3_z_axis = v3_x_axis /\
  t3_transform_vector (t3_rotate_z right) v3_x_axis = v3_y_axis.
Proof.
  cbv zeta. split; [|split; [|split]]; rot; rewrite ?sin_PI2, ?cos_PI2; ring.
Qed.
Lemma C41_inverse_is_negative_angle_pf : forall a : R,
  t2_inverse (t2_rotate (Fin a)) = t2_rotate (Fin (- a)) /\
  t3_inverse (t3_rotate_x (Fin a)) = t3_rotate_x (Fin (- a)) /\
  t3_inverse (t3_rotate_y (Fin a)) = t3_rotate_y (Fin (- a)) /\
  t3_inverse (t3_rotate_z (Fin a)) = t3_rotate_z (Fin (- a)).
Proof.
  intros a. split; [|split; [|split]]; rot; rewrite ?sin_neg, ?cos_neg; ring.
Qed.
(* the rotation matrix about a unit axis *)
Definition Raxis (k : Vector3 R) (s c : R) : Matrix4x4 R :=
  let x := v3x k in let y := v3y k in let z := v3z k in
  mkM4 (x * x * (1 - c) + c) (x * y * (1 - c) - z * s) (x * z * (1 - c) + y * s) 0
       (x * y * (1 - c) + z * s) (y * y * (1 - c) + c) (y * z * (1 - c) - x * s) 0
       (x * z * (1 - c) - y * s) (y * z * (1 - c) + x * s) (z * z * (1 - c) + c) 0
       0 0 0 1.
Definition Runit (k : Vector3 R) : Vector3 R := mkVector3 (v3x k / Rnorm3 k) (v3y k / Rnorm3 k) (v3z k / Rnorm3 k).
Lemma Runit_dot k : k <> Rzero3 -> Rdot3 (Runit k) (Runit k) = 1.
Proof. intros H. rewrite <- Rnorm3_sq. unfold Runit. rewrite Rnorm3_unit by assumption. ring. Qed.
Lemma xm4_rotate_axis k a : k <> Rzero3 -> m4_rotate_axis (XV3 k) (Fin a) = XM4 (Raxis (Runit k) (sin a) (cos a)).
Proof.
  intros H. unfold m4_rotate_axis. rewrite xv3_normalize by assumption. fold (Runit k).
  destruct (Runit k) as [x y z]. unfold Raxis. xcbv. cbv beta iota delta [xsin_cos]. xcbv. meqs; ring.
Qed.
Lemma unit_z2 x y z : Rdot3 (mkVector3 x y z) (mkVector3 x y z) = 1 -> z * z = 1 - x * x - y * y.
Proof. unfold Rdot3; cbn. lra. Qed.
Lemma C42_rodrigues_pf : forall (axis v : Vector3 R) (a : R), axis <> Rzero3 ->
  let k := v3_normalize (XV3 axis) in
  t3_transform_vector (t3_rotate_axis (XV3 axis) (Fin a)) (XV3 v) =
  v3_add (v3_add (v3_mul (XV3 v) (Fin (cos a))) (v3_mul (v3_cross k (XV3 v)) (Fin (sin a))))
         (v3_mul k (smul (v3_dot k (XV3 v)) (Fin (1 - cos a)))).
Proof.
  intros axis v a H k. unfold k. rewrite xv3_normalize by assumption. fold (Runit axis).
  unfold t3_transform_vector, t3_rotate_axis, t3_new, t3_forward. rewrite xm4_rotate_axis by assumption.
  pose proof (Runit_dot axis H) as U. destruct (Runit axis) as [x y z]. apply unit_z2 in U. unfold Raxis. destruct v.
  xcbv. xeqs; ring.
Qed.
Lemma C42_axis_rotation_isometry_pf : forall (axis : Vector3 R) (a : R) (u v : Vector3 R) (p q : Point3 R), axis <> Rzero3 ->
  let t := t3_rotate_axis (XV3 axis) (Fin a) in
  v3_dot (t3_transform_vector t (XV3 u)) (t3_transform_vector t (XV3 v)) = v3_dot (XV3 u) (XV3 v) /\
  v3_cross (t3_transform_vector t (XV3 u)) (t3_transform_vector t (XV3 v)) = t3_transform_vector t (v3_cross (XV3 u) (XV3 v)) /\
  p3_distance (t3_transform_point t (XP3 p)) (t3_transform_point t (XP3 q)) = p3_distance (XP3 p) (XP3 q) /\
  t3_transform_point t p3_origin = p3_origin /\
  t3_transform_vector t (XV3 axis) = XV3 axis.
Proof.
  intros axis a u v p q H t. pose proof (Runit_dot axis H) as U.
  assert (F : t3_forward t = XM4 (Raxis (Runit axis) (sin a) (cos a))) by (apply xm4_rotate_axis; assumption).
  clearbody t. pose proof (scm a) as SC. revert F SC. generalize (sin a) (cos a). clear a. intros s c F SC.
  assert (V : forall v, t3_transform_vector t v = m4_mul_vector (XM4 (Raxis (Runit axis) s c)) v) by (intros; unfold t3_transform_vector; now rewrite F).
  assert (W : forall v, t3_transform_point t v = m4_mul_point (XM4 (Raxis (Runit axis) s c)) v) by (intros; unfold t3_transform_point; now rewrite F).
  assert (D : forall u v : Vector3 R, v3_dot (t3_transform_vector t (XV3 u)) (t3_transform_vector t (XV3 v)) = v3_dot (XV3 u) (XV3 v)).
  { clear - V U SC. intros u v. rewrite !V. destruct (Runit axis) as [x y z]. apply unit_z2 in U. unfold Raxis. destruct u, v. xcbv. xeqs. ring [U SC]. }
  split; [apply D|]. split; [|split; [|split]].
  - rewrite !V. destruct (Runit axis) as [x y z]. apply unit_z2 in U. unfold Raxis. destruct u, v. xcbv. xeqs; ring [U SC].
  - unfold p3_distance, v3_length.
    replace (p3_sub (t3_transform_point t (XP3 q)) (t3_transform_point t (XP3 p))) with (t3_transform_vector t (p3_sub (XP3 q) (XP3 p))).
    + rewrite !xp3_sub. now rewrite D.
    + rewrite V, !W. symmetry. apply C51_affine_difference_3d_pf. repeat split.
  - rewrite W. change p3_origin with (XP3 (mkPoint3 0 0 0)) at 1. rewrite xm3_point_affine, img3_affine by repeat split.
    unfold Raxis. xcbv. xeqs; ring.
  - rewrite V. pose proof (Rnorm3_pos axis H) as N. unfold Runit in *. set (n := Rnorm3 axis) in *. clearbody n.
    destruct axis as [x y z]. cbn [v3x v3y v3z] in *. apply unit_z2 in U.
    assert (E : exists x' y' z', x = x' * n /\ y = y' * n /\ z = z' * n /\ x / n = x' /\ y / n = y' /\ z / n = z').
    { exists (x / n), (y / n), (z / n). repeat split; field; lra. }
    destruct E as (x' & y' & z' & -> & -> & -> & E1 & E2 & E3). rewrite E1, E2, E3 in *. unfold Raxis. xcbv. xeqs; ring [U].
Qed.
Lemma C42_axis_rotation_determinant_pf : forall (axis : Vector3 R) (a : R), axis <> Rzero3 ->
  exists m, m4_rotate_axis (XV3 axis) (Fin a) = XM4 m /\ mat_det 4 (ent4 m) = 1 /\
    t3_inv (t3_rotate_axis (XV3 axis) (Fin a)) = XM4 (mkM4 (m4_0 m) (m4_4 m) (m4_8 m) (m4_12 m) (m4_1 m) (m4_5 m) (m4_9 m) (m4_13 m)
                                                          (m4_2 m) (m4_6 m) (m4_10 m) (m4_14 m) (m4_3 m) (m4_7 m) (m4_11 m) (m4_15 m)).
Proof.
  intros axis a H. exists (Raxis (Runit axis) (sin a) (cos a)). split; [now apply xm4_rotate_axis|]. split.
  - pose proof (Runit_dot axis H) as U. pose proof (scm a) as SC. revert SC. generalize (sin a) (cos a). intros s c SC.
    destruct (Runit axis) as [x y z]. apply unit_z2 in U. unfold Raxis. mred. ring [U SC].
  - unfold t3_rotate_axis. cbn [t3_inv t3_new]. unfold t3_new, t3_inv. rewrite xm4_rotate_axis by assumption. reflexivity.
Qed.
Lemma C42_coordinate_axes_pf : forall a s : R, 0 < s ->
  t3_rotate_axis (XV3 (mkVector3 s 0 0)) (Fin a) = t3_rotate_x (Fin a) /\
  t3_rotate_axis (XV3 (mkVector3 0 s 0)) (Fin a) = t3_rotate_y (Fin a) /\
  t3_rotate_axis (XV3 (mkVector3 0 0 s)) (Fin a) = t3_rotate_z (Fin a).
Proof.
  intros a s Hs.
  assert (N1 : Rnorm3 (mkVector3 s 0 0) = s) by (unfold Rnorm3; cbn; replace (s * (s * 1) + 0 * (0 * 1) + 0 * (0 * 1)) with (s * s) by ring; apply sqrt_square; lra).
  assert (N2 : Rnorm3 (mkVector3 0 s 0) = s) by (unfold Rnorm3; cbn; replace (0 * (0 * 1) + s * (s * 1) + 0 * (0 * 1)) with (s * s) by ring; apply sqrt_square; lra).
  assert (N3 : Rnorm3 (mkVector3 0 0 s) = s) by (unfold Rnorm3; cbn; replace (0 * (0 * 1) + 0 * (0 * 1) + s * (s * 1)) with (s * s) by ring; apply sqrt_square; lra).
  unfold t3_rotate_axis. rewrite !xm4_rotate_axis by (intros K; injection K; lra). unfold Runit. rewrite N1, N2, N3.
  assert (E1 : s / s = 1) by (field; lra). assert (E0 : 0 / s = 0) by (field; lra).
  cbn [v3x v3y v3z]. rewrite E1, E0. unfold Raxis, t3_rotate_x, t3_rotate_y, t3_rotate_z.
  split; [|split]; rot; ring.
Qed.
Lemma C42_direction_only_pf : forall (axis : Vector3 R) (a s : R), axis <> Rzero3 -> 0 < s ->
  t3_rotate_axis (v3_mul (XV3 axis) (Fin s)) (Fin a) = t3_rotate_axis (XV3 axis) (Fin a).
Proof.
  intros axis a s H Hs. unfold t3_rotate_axis, m4_rotate_axis.
  now rewrite C23_normalize_scaling_3d_pf.
Qed.
