(** Theorems: C66 (intersecting a transformed object in object space), C67 (axis-preserving transforms commute with the box
    operations), C68 (centre of a transformed box). *)
From Coq Require Import Bool NArith ZArith Reals List Lra Lia Psatz.
From Verif Require Import Scalar Types Vector2 Vector3 Point2 Point3 Ray BoundingBox2 BoundingBox3 Transform2 Transform3
  XReal SpecReal SpecBox SpecTrans SpecAxis XTac ExactBase ExactTransRay.
Local Open Scope R_scope.
(** * C66: to intersect a ray with a transformed box, transform the ray into object space: the range is that of the world-space ray *)
Theorem C66_object_space_intersection_2d : forall (t : Transform2 R) (b : BoundingBox2 R) (r r' : Ray2 R), Built2 affine2 (XT2 t) -> Rordered2 b -> r2_direction r <> Rzero2 ->
  t2_transform_ray (t2_inverse (XT2 t)) (XR2 r) = XR2 r' -> off_faces2 b r' ->
  match bb2_intersect_ray (XB2 b) (t2_transform_ray (t2_inverse (XT2 t)) (XR2 r)) with
  | None => forall s : R, 0 <= s -> ~ (exists q : Point2 R, Rin2 q b /\ t2_transform_point (XT2 t) (XP2 q) = r2_at (XR2 r) (Fin s))
  | Some (s0, s1) => exists s0' s1' : R, s0 = Fin s0' /\ s1 = Fin s1' /\ 0 <= s0' <= s1' /\
      forall s : R, 0 <= s -> ((exists q : Point2 R, Rin2 q b /\ t2_transform_point (XT2 t) (XP2 q) = r2_at (XR2 r) (Fin s)) <-> s0' <= s <= s1')
  end.
Proof. exact C66_object_space_intersection_2d_pf. Qed.
Print Assumptions C66_object_space_intersection_2d.
Theorem C66_object_space_intersection_3d : forall (t : Transform3 R) (b : BoundingBox3 R) (r r' : Ray3 R), Built3 affine3 (XT3 t) -> Rordered3 b -> r3_direction r <> Rzero3 ->
  t3_transform_ray (t3_inverse (XT3 t)) (XR3 r) = XR3 r' -> off_faces3 b r' ->
  match bb3_intersect_ray (XB3 b) (t3_transform_ray (t3_inverse (XT3 t)) (XR3 r)) with
  | None => forall s : R, 0 <= s -> ~ (exists q : Point3 R, Rin3 q b /\ t3_transform_point (XT3 t) (XP3 q) = r3_at (XR3 r) (Fin s))
  | Some (s0, s1) => exists s0' s1' : R, s0 = Fin s0' /\ s1 = Fin s1' /\ 0 <= s0' <= s1' /\
      forall s : R, 0 <= s -> ((exists q : Point3 R, Rin3 q b /\ t3_transform_point (XT3 t) (XP3 q) = r3_at (XR3 r) (Fin s)) <-> s0' <= s <= s1')
  end.
Proof. exact C66_object_space_intersection_3d_pf. Qed.
Print Assumptions C66_object_space_intersection_3d.
(** * C67: axis-preserving transforms commute with the box operations *)
Theorem C67_ray_equivariance_2d : forall (t : Transform2 R) (b : BoundingBox2 R) (r : Ray2 R), affine2 (t2_forward t) -> axis_preserving2 (t2_forward t) -> Rordered2 b -> r2_direction r <> Rzero2 ->
  bb2_intersect_ray (t2_transform_bb (XT2 t) (XB2 b)) (t2_transform_ray (XT2 t) (XR2 r)) = bb2_intersect_ray (XB2 b) (XR2 r).
Proof. exact C67_ray_equivariance_2d_pf. Qed.
Print Assumptions C67_ray_equivariance_2d.
Theorem C67_ray_equivariance_3d : forall (t : Transform3 R) (b : BoundingBox3 R) (r : Ray3 R), affine3 (t3_forward t) -> axis_preserving3 (t3_forward t) -> Rordered3 b -> r3_direction r <> Rzero3 ->
  bb3_intersect_ray (t3_transform_bb (XT3 t) (XB3 b)) (t3_transform_ray (XT3 t) (XR3 r)) = bb3_intersect_ray (XB3 b) (XR3 r).
Proof. exact C67_ray_equivariance_3d_pf. Qed.
Print Assumptions C67_ray_equivariance_3d.
Theorem C67_box_operations_2d : forall (t : Transform2 R) (a b : BoundingBox2 R) (p : Point2 R), affine2 (t2_forward t) -> axis_preserving2 (t2_forward t) -> Rordered2 a -> Rordered2 b ->
  let T := t2_transform_bb (XT2 t) in
  bb2_is_inside (T (XB2 b)) (t2_transform_point (XT2 t) (XP2 p)) = bb2_is_inside (XB2 b) (XP2 p) /\
  T (bb2_union (XB2 a) (XB2 b)) = bb2_union (T (XB2 a)) (T (XB2 b)) /\
  bb2_overlaps (T (XB2 a)) (T (XB2 b)) = bb2_overlaps (XB2 a) (XB2 b) /\
  bb2_intersect (T (XB2 a)) (T (XB2 b)) = option_map T (bb2_intersect (XB2 a) (XB2 b)).
Proof. exact C67_box_operations_2d_pf. Qed.
Print Assumptions C67_box_operations_2d.
Theorem C67_box_operations_3d : forall (t : Transform3 R) (a b : BoundingBox3 R) (p : Point3 R), affine3 (t3_forward t) -> axis_preserving3 (t3_forward t) -> Rordered3 a -> Rordered3 b ->
  let T := t3_transform_bb (XT3 t) in
  bb3_is_inside (T (XB3 b)) (t3_transform_point (XT3 t) (XP3 p)) = bb3_is_inside (XB3 b) (XP3 p) /\
  T (bb3_union (XB3 a) (XB3 b)) = bb3_union (T (XB3 a)) (T (XB3 b)) /\
  bb3_overlaps (T (XB3 a)) (T (XB3 b)) = bb3_overlaps (XB3 a) (XB3 b) /\
  bb3_intersect (T (XB3 a)) (T (XB3 b)) = option_map T (bb3_intersect (XB3 a) (XB3 b)).
Proof. exact C67_box_operations_3d_pf. Qed.
Print Assumptions C67_box_operations_3d.
(** * C68: the centre of a transformed box is the transformed centre, for every affine transform *)
Theorem C68_center_2d : forall (t : Transform2 R) (b : BoundingBox2 R), affine2 (t2_forward t) ->
  bb2_center (t2_transform_bb (XT2 t) (XB2 b)) = t2_transform_point (XT2 t) (bb2_center (XB2 b)).
Proof. exact C68_center_2d_pf. Qed.
Print Assumptions C68_center_2d.
Theorem C68_center_3d : forall (t : Transform3 R) (b : BoundingBox3 R), affine3 (t3_forward t) ->
  bb3_center (t3_transform_bb (XT3 t) (XB3 b)) = t3_transform_point (XT3 t) (bb3_center (XB3 b)).
Proof. exact C68_center_3d_pf. Qed.
Print Assumptions C68_center_3d.
(** Concrete cases meeting the hypotheses. *)
Example C66_example_2d : exists t : Transform2 R, let b := mkBB2 (mkPoint2 0 0) (mkPoint2 2 1) in
  let r := mkRay2 (mkPoint2 0 6) (mkVector2 1 1) in let r' := mkRay2 (mkPoint2 (-1) 0) (mkVector2 (/ 2) (/ 3)) in
  XT2 t = t2_and_then (t2_translate (XV2 (mkVector2 1 2))) (t2_scale (Fin 2) (Fin 3)) /\
  Built2 affine2 (XT2 t) /\ Rordered2 b /\ r2_direction r <> Rzero2 /\
  t2_transform_ray (t2_inverse (XT2 t)) (XR2 r) = XR2 r' /\ off_faces2 b r'.
Proof.
  exists (mkT2 (mkM3 2 0 2 0 3 6 0 0 1) (mkM3 (/ 2) 0 (-1) 0 (/ 3) (-2) 0 0 1)). cbv zeta.
  assert (E : XT2 (mkT2 (mkM3 2 0 2 0 3 6 0 0 1) (mkM3 (/ 2) 0 (-1) 0 (/ 3) (-2) 0 0 1)) = t2_and_then (t2_translate (XV2 (mkVector2 1 2))) (t2_scale (Fin 2) (Fin 3))).
  { xcbv. cbn. rewrite !(Raux.Req_bool_false 2 0), !(Raux.Req_bool_false 3 0) by lra. cbn. f_equal; f_equal; xeqs; lra. }
  split; [exact E|]. split; [rewrite E; apply B2_and_then; [apply B2_translate | apply B2_scale; lra]|].
  split; [unfold Rordered2; cbn; lra|]. split; [intros H; injection H; lra|]. split.
  - clear E. change (t2_inverse (XT2 (mkT2 (mkM3 2 0 2 0 3 6 0 0 1) (mkM3 (/ 2) 0 (-1) 0 (/ 3) (-2) 0 0 1)))) with (XT2 (mkT2 (mkM3 (/ 2) 0 (-1) 0 (/ 3) (-2) 0 0 1) (mkM3 2 0 2 0 3 6 0 0 1))).
    rewrite xtray2 by (unfold affine2; cbn; lra). apply f_equal. unfold Rtray2, Rlin2. cbn [t2_forward r2_origin r2_direction m3_0 m3_1 m3_3 m3_4 v2x v2y]. rewrite ExactRot.img2_affine by (unfold affine2; cbn; lra). cbn. f_equal; f_equal; lra.
  - unfold off_faces2, off_plane. cbn. lra.
Qed.
Example C67_example_2d : let m := mkM3 0 (-2) 1 3 0 4 0 0 1 in affine2 m /\ axis_preserving2 m.
Proof.
  cbv zeta. split; [unfold affine2; cbn; lra|].
  exists (fun d => match d with D2X => D2Y | D2Y => D2X end). split; intros [] []; cbn; intros; try congruence; split; intros; try congruence; try lra.
Qed.
Example C67_example_3d : let m := mkM4 0 (-2) 0 1 0 0 3 4 5 0 0 7 0 0 0 1 in affine3 m /\ axis_preserving3 m.
Proof.
  cbv zeta. split; [unfold affine3; cbn; lra|].
  exists (fun d => match d with D3X => D3Y | D3Y => D3Z | D3Z => D3X end). split; intros [] []; cbn; intros; try congruence; split; intros; try congruence; try lra.
Qed.
