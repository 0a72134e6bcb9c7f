(** Theorems: C124 (transforms about a pivot point).  Exact arithmetic. *)
From Coq Require Import Bool NArith ZArith Reals List Lra.
From Verif Require Import Scalar Types Vector2 Vector3 Point2 Point3 Ray Transform2 Transform3
  XReal SpecReal SpecTrans SpecSim SpecPivot XTac ExactBase ExactVec ExactBox ExactRot ExactTrans ExactPivot.
Local Open Scope R_scope.
(** p is taken to t(p - c) moved back by c; vectors are transformed by t *)
Theorem C124_about_2d : forall (t : Transform2 xreal) (c p : Point2 R) (v : Vector2 R), Built2 affine2 t ->
  t2_transform_point (about2 (XP2 c) t) (XP2 p) = p2_add (t2_transform_point t (p2_add p2_origin (p2_sub (XP2 p) (XP2 c)))) (p2_sub (XP2 c) p2_origin) /\
  t2_transform_vector (about2 (XP2 c) t) (XV2 v) = t2_transform_vector t (XV2 v).
Proof. exact C124_about_2d_pf. Qed.
Print Assumptions C124_about_2d.
Theorem C124_about_3d : forall (t : Transform3 xreal) (c p : Point3 R) (v : Vector3 R), Built3 affine3 t ->
  t3_transform_point (about3 (XP3 c) t) (XP3 p) = p3_add (t3_transform_point t (p3_add p3_origin (p3_sub (XP3 p) (XP3 c)))) (p3_sub (XP3 c) p3_origin) /\
  t3_transform_vector (about3 (XP3 c) t) (XV3 v) = t3_transform_vector t (XV3 v).
Proof. exact C124_about_3d_pf. Qed.
Print Assumptions C124_about_3d.
(** the result is again an affine transform with its inverse *)
Theorem C124_built_2d : forall (t : Transform2 xreal) (c : Point2 R), Built2 affine2 t -> Built2 affine2 (about2 (XP2 c) t).
Proof. exact C124_built_2d_pf. Qed.
Print Assumptions C124_built_2d.
Theorem C124_built_3d : forall (t : Transform3 xreal) (c : Point3 R), Built3 affine3 t -> Built3 affine3 (about3 (XP3 c) t).
Proof. exact C124_built_3d_pf. Qed.
Print Assumptions C124_built_3d.
(** if t keeps the origin then the pivot stays and p goes to c plus the transformed p - c *)
Theorem C124_pivot_2d : forall (t : Transform2 xreal) (c p : Point2 R), Built2 affine2 t -> t2_transform_point t p2_origin = p2_origin ->
  t2_transform_point (about2 (XP2 c) t) (XP2 c) = XP2 c /\
  t2_transform_point (about2 (XP2 c) t) (XP2 p) = p2_add (XP2 c) (t2_transform_vector t (p2_sub (XP2 p) (XP2 c))).
Proof. exact C124_pivot_2d_pf. Qed.
Print Assumptions C124_pivot_2d.
Theorem C124_pivot_3d : forall (t : Transform3 xreal) (c p : Point3 R), Built3 affine3 t -> t3_transform_point t p3_origin = p3_origin ->
  t3_transform_point (about3 (XP3 c) t) (XP3 c) = XP3 c /\
  t3_transform_point (about3 (XP3 c) t) (XP3 p) = p3_add (XP3 c) (t3_transform_vector t (p3_sub (XP3 p) (XP3 c))).
Proof. exact C124_pivot_3d_pf. Qed.
Print Assumptions C124_pivot_3d.
(** one pivot: doing t then u is doing (t then u), undoing t is doing the inverse of t *)
Theorem C124_group_2d : forall (t u : Transform2 xreal) (c p : Point2 R), Built2 affine2 t -> Built2 affine2 u ->
  t2_transform_point (t2_and_then (about2 (XP2 c) t) (about2 (XP2 c) u)) (XP2 p) = t2_transform_point (about2 (XP2 c) (t2_and_then t u)) (XP2 p) /\
  t2_transform_point (t2_inverse (about2 (XP2 c) t)) (XP2 p) = t2_transform_point (about2 (XP2 c) (t2_inverse t)) (XP2 p).
Proof. exact C124_group_2d_pf. Qed.
Print Assumptions C124_group_2d.
Theorem C124_group_3d : forall (t u : Transform3 xreal) (c p : Point3 R), Built3 affine3 t -> Built3 affine3 u ->
  t3_transform_point (t3_and_then (about3 (XP3 c) t) (about3 (XP3 c) u)) (XP3 p) = t3_transform_point (about3 (XP3 c) (t3_and_then t u)) (XP3 p) /\
  t3_transform_point (t3_inverse (about3 (XP3 c) t)) (XP3 p) = t3_transform_point (about3 (XP3 c) (t3_inverse t)) (XP3 p).
Proof. exact C124_group_3d_pf. Qed.
Print Assumptions C124_group_3d.
(** the distance to the pivot is multiplied by the factor of t *)
Theorem C124_similar_2d : forall (t : Transform2 xreal) (k : R) (c p : Point2 R), Similar2 t k -> t2_transform_point t p2_origin = p2_origin ->
  p2_distance (t2_transform_point (about2 (XP2 c) t) (XP2 p)) (XP2 c) = Fin (Rabs k * Rdist2 p c).
Proof. exact C124_similar_2d_pf. Qed.
Print Assumptions C124_similar_2d.
Theorem C124_similar_3d : forall (t : Transform3 xreal) (k : R) (c p : Point3 R), Similar3 t k -> t3_transform_point t p3_origin = p3_origin ->
  p3_distance (t3_transform_point (about3 (XP3 c) t) (XP3 p)) (XP3 c) = Fin (Rabs k * Rdist3 p c).
Proof. exact C124_similar_3d_pf. Qed.
Print Assumptions C124_similar_3d.
(** rotations about one point: angles add, the inverse turns back, and a proper rotation keeps no other point *)
Theorem C124_rotation_2d : forall (a b : R) (c p : Point2 R),
  t2_transform_point (t2_and_then (about2 (XP2 c) (t2_rotate (Fin a))) (about2 (XP2 c) (t2_rotate (Fin b)))) (XP2 p) = t2_transform_point (about2 (XP2 c) (t2_rotate (Fin (a + b)))) (XP2 p) /\
  t2_transform_point (t2_inverse (about2 (XP2 c) (t2_rotate (Fin a)))) (XP2 p) = t2_transform_point (about2 (XP2 c) (t2_rotate (Fin (- a)))) (XP2 p) /\
  (cos a <> 1 -> (t2_transform_point (about2 (XP2 c) (t2_rotate (Fin a))) (XP2 p) = XP2 p <-> p = c)).
Proof. exact C124_rotation_2d_pf. Qed.
Print Assumptions C124_rotation_2d.
(** a rotation about the line through c along the axis keeps the points of that line and, if proper, no others *)
Theorem C124_axis_3d : forall (axis : Vector3 R) (a : R) (c : Point3 R), axis <> Rzero3 -> let t := about3 (XP3 c) (t3_rotate_axis (XV3 axis) (Fin a)) in
  (forall s : R, let p := r3_at (r3_new (XP3 c) (XV3 axis)) (Fin s) in t3_transform_point t p = p) /\
  (cos a <> 1 -> forall p : Point3 R, t3_transform_point t (XP3 p) = XP3 p -> exists s : R, XP3 p = r3_at (r3_new (XP3 c) (XV3 axis)) (Fin s)).
Proof. exact C124_axis_3d_pf. Qed.
Print Assumptions C124_axis_3d.
(* a quarter turn about (1, 0) takes (2, 0) to (1, 1) *)
Example C124_example_2d : Built2 affine2 (t2_rotate (Fin (PI / 2))) /\ Similar2 (t2_rotate (Fin (PI / 2))) 1 /\ t2_transform_point (t2_rotate (Fin (PI / 2))) p2_origin = p2_origin /\ cos (PI / 2) <> 1 /\
  t2_transform_point (about2 (XP2 (mkPoint2 1 0)) (t2_rotate (Fin (PI / 2)))) (XP2 (mkPoint2 2 0)) = XP2 (mkPoint2 1 1).
Proof.
  assert (B : Built2 affine2 (t2_rotate (Fin (PI / 2)))) by apply B2_rotate. pose proof (rot_origin2 (PI / 2)) as O0. split; [exact B|]. split; [apply S2_rotate|]. split; [exact O0|]. split; [rewrite cos_PI2; lra|].
  rewrite (proj2 (C124_pivot_2d _ _ (mkPoint2 2 0) B O0)). xcbv. cbn. rewrite sin_PI2, cos_PI2. xeqs; ring.
Qed.
(* tripling about (1, 2, 3) takes (2, 2, 3) to (4, 2, 3); an axis to turn about *)
Example C124_example_3d : Built3 affine3 (t3_scale_uniform (Fin 3)) /\ Similar3 (t3_scale_uniform (Fin 3)) 3 /\ t3_transform_point (t3_scale_uniform (Fin 3)) p3_origin = p3_origin /\ mkVector3 0 0 1 <> Rzero3 /\ cos PI <> 1 /\
  t3_transform_point (about3 (XP3 (mkPoint3 1 2 3)) (t3_scale_uniform (Fin 3))) (XP3 (mkPoint3 2 2 3)) = XP3 (mkPoint3 4 2 3).
Proof.
  assert (B : Built3 affine3 (t3_scale_uniform (Fin 3))) by (apply B3_scale_uniform; lra).
  assert (O0 : t3_transform_point (t3_scale_uniform (Fin 3)) p3_origin = p3_origin) by (xcbv; rewrite !xdiv_fin by lra; xeqs; field).
  split; [exact B|]. split; [apply S3_scale_uniform; lra|]. split; [exact O0|]. split; [unfold Rzero3; intros E; injection E; lra|]. split; [rewrite cos_PI; lra|].
  rewrite (proj2 (C124_pivot_3d _ _ (mkPoint3 2 2 3) B O0)). xcbv. cbn. xeqs; ring.
Qed.
