(** Property theorems in exact arithmetic: transforms (C43, C44, C46, C48).
    [Built2], [Built3]: every transform a user can construct through the API from finite parameters (SpecTrans.v). *)
From Coq Require Import Bool NArith ZArith Reals List Lra.
From Verif Require Import Scalar Types Vector2 Vector3 Point2 Point3 Ray Transform2 Transform3
  XReal Arith SpecOrder SpecStruct SpecReal SpecTrans ExactMat ExactTrans.
Import ListNotations.
Local Open Scope R_scope.
(** ** C48: look_at *)
Theorem C48_look_at_ok : forall (prof : profile) (from target : Point3 R) (up : Vector3 R), Indep3 up (Rsub3 target from) ->
  exists t, t3_look_at prof (XP3 from) (XP3 target) (XV3 up) = Ret (Ok t).
Proof. exact C48_look_at_ok_pf. Qed.
Print Assumptions C48_look_at_ok.
Theorem C48_look_at_frame : forall (prof : profile) (from target : Point3 R) (up : Vector3 R) t, Indep3 up (Rsub3 target from) ->
  t3_look_at prof (XP3 from) (XP3 target) (XV3 up) = Ret (Ok t) ->
  t3_transform_point t (XP3 from) = p3_origin /\
  t3_transform_point t (XP3 target) = mkPoint3 (Fin 0) (Fin 0) (p3_distance (XP3 from) (XP3 target)) /\
  (exists y z : R, t3_transform_vector t (XV3 up) = mkVector3 (Fin 0) (Fin y) (Fin z) /\ 0 < y).
Proof. exact C48_look_at_frame_pf. Qed.
Print Assumptions C48_look_at_frame.
Theorem C48_look_at_rigid : forall (prof : profile) (from target : Point3 R) (up : Vector3 R) t, Indep3 up (Rsub3 target from) ->
  t3_look_at prof (XP3 from) (XP3 target) (XV3 up) = Ret (Ok t) ->
  forall (p q : Point3 R) (u v : Vector3 R),
  p3_distance (t3_transform_point t (XP3 p)) (t3_transform_point t (XP3 q)) = p3_distance (XP3 p) (XP3 q) /\
  v3_dot (t3_transform_vector t (XV3 u)) (t3_transform_vector t (XV3 v)) = v3_dot (XV3 u) (XV3 v) /\
  v3_cross (t3_transform_vector t (XV3 u)) (t3_transform_vector t (XV3 v)) = t3_transform_vector t (v3_cross (XV3 u) (XV3 v)).
Proof. exact C48_look_at_rigid_pf. Qed.
Print Assumptions C48_look_at_rigid.
Example C48_example : Indep3 (mkVector3 0 1 0) (Rsub3 (mkPoint3 4 5 6) (mkPoint3 1 2 3)).
Proof. apply Indep3_dec_ex. unfold Rcross, Rsub3, Rzero3. cbn. intros H. injection H. lra. Qed.
(** ** C43: every constructible transform holds mutually inverse finite matrices *)
Theorem C43_mutually_inverse_2d : forall t : Transform2 xreal, Built2 (fun _ => True) t ->
  m3_mul (t2_forward t) (t2_inv t) = m3_identity /\ m3_mul (t2_inv t) (t2_forward t) = m3_identity /\
  (exists u : Transform2 R, t = XT2 u).
Proof. exact C43_mutually_inverse_2d_pf. Qed.
Print Assumptions C43_mutually_inverse_2d.
Theorem C43_mutually_inverse_3d : forall t : Transform3 xreal, Built3 (fun _ => True) t ->
  m4_mul (t3_forward t) (t3_inv t) = m4_identity /\ m4_mul (t3_inv t) (t3_forward t) = m4_identity /\
  (exists u : Transform3 R, t = XT3 u).
Proof. exact C43_mutually_inverse_3d_pf. Qed.
Print Assumptions C43_mutually_inverse_3d.
Theorem C43_point_round_trip_2d : forall (t : Transform2 R) (p : Point2 R), Built2 (fun _ => True) (XT2 t) -> weight2 (t2_forward t) p <> 0 ->
  t2_transform_point (t2_inverse (XT2 t)) (t2_transform_point (XT2 t) (XP2 p)) = XP2 p.
Proof. exact C43_point_round_trip_2d_pf. Qed.
Print Assumptions C43_point_round_trip_2d.
Theorem C43_point_round_trip_3d : forall (t : Transform3 R) (p : Point3 R), Built3 (fun _ => True) (XT3 t) -> weight3 (t3_forward t) p <> 0 ->
  t3_transform_point (t3_inverse (XT3 t)) (t3_transform_point (XT3 t) (XP3 p)) = XP3 p.
Proof. exact C43_point_round_trip_3d_pf. Qed.
Print Assumptions C43_point_round_trip_3d.
Theorem C43_affine_closed_2d : forall t : Transform2 xreal, Built2 affine2 t ->
  exists u : Transform2 R, t = XT2 u /\ affine2 (t2_forward u) /\ affine2 (t2_inv u).
Proof. exact C43_affine_closed_2d_pf. Qed.
Print Assumptions C43_affine_closed_2d.
Theorem C43_affine_closed_3d : forall t : Transform3 xreal, Built3 affine3 t ->
  exists u : Transform3 R, t = XT3 u /\ affine3 (t3_forward u) /\ affine3 (t3_inv u).
Proof. exact C43_affine_closed_3d_pf. Qed.
Print Assumptions C43_affine_closed_3d.
Theorem C43_affine_round_trip_2d : forall (t : Transform2 xreal) (p : Point2 R) (v : Vector2 R) (r : Ray2 R), Built2 affine2 t ->
  t2_transform_point (t2_inverse t) (t2_transform_point t (XP2 p)) = XP2 p /\
  t2_transform_vector (t2_inverse t) (t2_transform_vector t (XV2 v)) = XV2 v /\
  t2_transform_ray (t2_inverse t) (t2_transform_ray t (XR2 r)) = XR2 r.
Proof. exact C43_affine_round_trip_2d_pf. Qed.
Print Assumptions C43_affine_round_trip_2d.
Theorem C43_affine_round_trip_3d : forall (t : Transform3 xreal) (p : Point3 R) (v : Vector3 R) (r : Ray3 R), Built3 affine3 t ->
  t3_transform_point (t3_inverse t) (t3_transform_point t (XP3 p)) = XP3 p /\
  t3_transform_vector (t3_inverse t) (t3_transform_vector t (XV3 v)) = XV3 v /\
  t3_transform_ray (t3_inverse t) (t3_transform_ray t (XR3 r)) = XR3 r.
Proof. exact C43_affine_round_trip_3d_pf. Qed.
Print Assumptions C43_affine_round_trip_3d.
(** ** C44: and_then applies first self, then next *)
Theorem C44_and_then_point_2d : forall (t u : Transform2 R) (p : Point2 R), weight2 (t2_forward t) p <> 0 -> weight2 (t2_forward u) (img2 (t2_forward t) p) <> 0 ->
  t2_transform_point (t2_and_then (XT2 t) (XT2 u)) (XP2 p) = t2_transform_point (XT2 u) (t2_transform_point (XT2 t) (XP2 p)).
Proof. exact C44_and_then_point_2d_pf. Qed.
Print Assumptions C44_and_then_point_2d.
Theorem C44_and_then_point_3d : forall (t u : Transform3 R) (p : Point3 R), weight3 (t3_forward t) p <> 0 -> weight3 (t3_forward u) (img3 (t3_forward t) p) <> 0 ->
  t3_transform_point (t3_and_then (XT3 t) (XT3 u)) (XP3 p) = t3_transform_point (XT3 u) (t3_transform_point (XT3 t) (XP3 p)).
Proof. exact C44_and_then_point_3d_pf. Qed.
Print Assumptions C44_and_then_point_3d.
Theorem C44_and_then_affine_2d : forall (t u : Transform2 R) (p : Point2 R) (v : Vector2 R) (r : Ray2 R), affine2 (t2_forward t) -> affine2 (t2_forward u) ->
  t2_transform_point (t2_and_then (XT2 t) (XT2 u)) (XP2 p) = t2_transform_point (XT2 u) (t2_transform_point (XT2 t) (XP2 p)) /\
  t2_transform_vector (t2_and_then (XT2 t) (XT2 u)) (XV2 v) = t2_transform_vector (XT2 u) (t2_transform_vector (XT2 t) (XV2 v)) /\
  t2_transform_ray (t2_and_then (XT2 t) (XT2 u)) (XR2 r) = t2_transform_ray (XT2 u) (t2_transform_ray (XT2 t) (XR2 r)).
Proof. exact C44_and_then_affine_2d_pf. Qed.
Print Assumptions C44_and_then_affine_2d.
Theorem C44_and_then_affine_3d : forall (t u : Transform3 R) (p : Point3 R) (v : Vector3 R) (r : Ray3 R), affine3 (t3_forward t) -> affine3 (t3_forward u) ->
  t3_transform_point (t3_and_then (XT3 t) (XT3 u)) (XP3 p) = t3_transform_point (XT3 u) (t3_transform_point (XT3 t) (XP3 p)) /\
  t3_transform_vector (t3_and_then (XT3 t) (XT3 u)) (XV3 v) = t3_transform_vector (XT3 u) (t3_transform_vector (XT3 t) (XV3 v)) /\
  t3_transform_ray (t3_and_then (XT3 t) (XT3 u)) (XR3 r) = t3_transform_ray (XT3 u) (t3_transform_ray (XT3 t) (XR3 r)).
Proof. exact C44_and_then_affine_3d_pf. Qed.
Print Assumptions C44_and_then_affine_3d.
Theorem C44_and_then_vector_2d : forall (t u : Transform2 R) (v : Vector2 R), affine2 (t2_forward t) ->
  t2_transform_vector (t2_and_then (XT2 t) (XT2 u)) (XV2 v) = t2_transform_vector (XT2 u) (t2_transform_vector (XT2 t) (XV2 v)).
Proof. exact C44_and_then_vector_2d_pf. Qed.
Print Assumptions C44_and_then_vector_2d.
Theorem C44_and_then_vector_3d : forall (t u : Transform3 R) (v : Vector3 R), affine3 (t3_forward t) ->
  t3_transform_vector (t3_and_then (XT3 t) (XT3 u)) (XV3 v) = t3_transform_vector (XT3 u) (t3_transform_vector (XT3 t) (XV3 v)).
Proof. exact C44_and_then_vector_3d_pf. Qed.
Print Assumptions C44_and_then_vector_3d.
Theorem C44_composite_of_a_list_2d : forall (l : list (Transform2 R)) (p : Point2 R), path_ok2 l p ->
  t2_transform_point (fold_left t2_and_then (map XT2 l) t2_identity) (XP2 p) =
  fold_left (fun q u => t2_transform_point u q) (map XT2 l) (XP2 p).
Proof. exact C44_composite_of_a_list_2d_pf. Qed.
Print Assumptions C44_composite_of_a_list_2d.
Theorem C44_composite_of_a_list_3d : forall (l : list (Transform3 R)) (p : Point3 R), path_ok3 l p ->
  t3_transform_point (fold_left t3_and_then (map XT3 l) t3_identity) (XP3 p) =
  fold_left (fun q u => t3_transform_point u q) (map XT3 l) (XP3 p).
Proof. exact C44_composite_of_a_list_3d_pf. Qed.
Print Assumptions C44_composite_of_a_list_3d.
Theorem C44_composite_of_a_list_affine_2d : forall (l : list (Transform2 R)) (p : Point2 R) (v : Vector2 R) (r : Ray2 R), Forall (fun u => affine2 (t2_forward u)) l ->
  t2_transform_point (fold_left t2_and_then (map XT2 l) t2_identity) (XP2 p) =
  fold_left (fun q u => t2_transform_point u q) (map XT2 l) (XP2 p) /\
  t2_transform_vector (fold_left t2_and_then (map XT2 l) t2_identity) (XV2 v) =
  fold_left (fun q u => t2_transform_vector u q) (map XT2 l) (XV2 v) /\
  t2_transform_ray (fold_left t2_and_then (map XT2 l) t2_identity) (XR2 r) =
  fold_left (fun q u => t2_transform_ray u q) (map XT2 l) (XR2 r).
Proof. exact C44_composite_of_a_list_affine_2d_pf. Qed.
Print Assumptions C44_composite_of_a_list_affine_2d.
Theorem C44_composite_of_a_list_affine_3d : forall (l : list (Transform3 R)) (p : Point3 R) (v : Vector3 R) (r : Ray3 R), Forall (fun u => affine3 (t3_forward u)) l ->
  t3_transform_point (fold_left t3_and_then (map XT3 l) t3_identity) (XP3 p) =
  fold_left (fun q u => t3_transform_point u q) (map XT3 l) (XP3 p) /\
  t3_transform_vector (fold_left t3_and_then (map XT3 l) t3_identity) (XV3 v) =
  fold_left (fun q u => t3_transform_vector u q) (map XT3 l) (XV3 v) /\
  t3_transform_ray (fold_left t3_and_then (map XT3 l) t3_identity) (XR3 r) =
  fold_left (fun q u => t3_transform_ray u q) (map XT3 l) (XR3 r).
Proof. exact C44_composite_of_a_list_affine_3d_pf. Qed.
Print Assumptions C44_composite_of_a_list_affine_3d.
(* a projective (non-affine) transform with non-vanishing weight, then an affine one *)
Example C44_example_2d :
  let t := mkT2 (mkM3 1 0 0 0 1 0 1 0 1) (mkM3 1 0 0 0 1 0 (-1) 0 1) in
  let u := mkT2 (mkM3 2 0 3 0 1 0 0 0 1) (mkM3 (1/2) 0 (-3/2) 0 1 0 0 0 1) in
  path_ok2 [t; u] (mkPoint2 1 2) /\ affine2 (t2_forward u) /\ ~ affine2 (t2_forward t).
Proof.
  cbv zeta. split; [|split].
  - cbn [path_ok2 t2_forward]. split; [|split; [|exact I]].
    + unfold weight2, mat_apply, sum_n, ent3, hom2, nth. cbn. lra.
    + rewrite ExactRot.affine_weight2 by (repeat split). lra.
  - repeat split.
  - unfold affine2. cbn. lra.
Qed.
(** ** C46: transforming a ray commutes with evaluating it *)
Theorem C46_ray_at_2d : forall (t : Transform2 R) (r : Ray2 R) (s : R), affine2 (t2_forward t) ->
  r2_at (t2_transform_ray (XT2 t) (XR2 r)) (Fin s) = t2_transform_point (XT2 t) (r2_at (XR2 r) (Fin s)).
Proof. exact C46_ray_at_2d_pf. Qed.
Print Assumptions C46_ray_at_2d.
Theorem C46_ray_at_3d : forall (t : Transform3 R) (r : Ray3 R) (s : R), affine3 (t3_forward t) ->
  r3_at (t3_transform_ray (XT3 t) (XR3 r)) (Fin s) = t3_transform_point (XT3 t) (r3_at (XR3 r) (Fin s)).
Proof. exact C46_ray_at_3d_pf. Qed.
Print Assumptions C46_ray_at_3d.
(* built transforms: composite of a translation, a rotation and the inverse of a scaling *)
Example C43_example_2d : Built2 affine2
  (t2_and_then (t2_and_then (t2_translate (XV2 (mkVector2 1 2))) (t2_rotate (Fin 1))) (t2_inverse (t2_scale (Fin 2) (Fin 3)))).
Proof.
  apply B2_and_then; [apply B2_and_then|]. - apply B2_translate. - apply B2_rotate. - apply B2_inverse, B2_scale; lra.
Qed.
Example C43_example_3d : Built3 affine3
  (t3_and_then (t3_and_then (t3_translate (XV3 (mkVector3 1 2 3))) (t3_rotate_axis (XV3 (mkVector3 0 3 4)) (Fin 1))) (t3_inverse (t3_scale (Fin 2) (Fin 3) (Fin 4)))).
Proof.
  apply B3_and_then; [apply B3_and_then|]. - apply B3_translate. - apply B3_rotate_axis. intros H. injection H. lra. - apply B3_inverse, B3_scale; lra.
Qed.
