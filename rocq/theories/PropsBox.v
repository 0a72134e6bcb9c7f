(** Property theorems in exact arithmetic: boxes (C13, C14, C15, C16, C17, C19). *)
From Coq Require Import Bool NArith ZArith Reals List Lra.
From Verif Require Import Scalar Types Vector2 Vector3 Point2 Point3 Ray BoundingBox2 BoundingBox3
  XReal Arith SpecOrder SpecStruct SpecReal SpecBox ExactBox.
Import ListNotations.
Local Open Scope R_scope.
(** ** C16: ray-box intersection *)
Theorem C16_ray_intersection_2d : forall (b : BoundingBox2 R) (r : Ray2 R), Rordered2 b -> r2_direction r <> Rzero2 -> off_faces2 b r ->
  match bb2_intersect_ray (XB2 b) (XR2 r) with
  | None => forall t : R, 0 <= t -> bb2_is_inside (XB2 b) (r2_at (XR2 r) (Fin t)) = false
  | Some (s, e) => exists s' e' : R, s = Fin s' /\ e = Fin e' /\ 0 <= s' <= e' /\
      forall t : R, 0 <= t -> (bb2_is_inside (XB2 b) (r2_at (XR2 r) (Fin t)) = true <-> s' <= t <= e')
  end.
Proof. exact C16_ray_intersection_2d_pf. Qed.
Print Assumptions C16_ray_intersection_2d.
Theorem C16_ray_intersection_3d : forall (b : BoundingBox3 R) (r : Ray3 R), Rordered3 b -> r3_direction r <> Rzero3 -> off_faces3 b r ->
  match bb3_intersect_ray (XB3 b) (XR3 r) with
  | None => forall t : R, 0 <= t -> bb3_is_inside (XB3 b) (r3_at (XR3 r) (Fin t)) = false
  | Some (s, e) => exists s' e' : R, s = Fin s' /\ e = Fin e' /\ 0 <= s' <= e' /\
      forall t : R, 0 <= t -> (bb3_is_inside (XB3 b) (r3_at (XR3 r) (Fin t)) = true <-> s' <= t <= e')
  end.
Proof. exact C16_ray_intersection_3d_pf. Qed.
Print Assumptions C16_ray_intersection_3d.
Example C16_example_2d : let b := mkBB2 (mkPoint2 0 0) (mkPoint2 2 1) in let r := mkRay2 (mkPoint2 (-1) (1/2)) (mkVector2 1 0) in
  Rordered2 b /\ r2_direction r <> Rzero2 /\ off_faces2 b r.
Proof.
  cbv zeta. unfold Rordered2, off_faces2, off_plane, Rzero2. cbn. repeat split; try lra. intros H. injection H. lra.
Qed.
(** ** C17: rays in a face plane.  The full property is refuted; what the intersection reports is characterised without any side condition *)
Theorem C17_what_is_reported_2d : forall (b : BoundingBox2 R) (r : Ray2 R), Rordered2 b -> r2_direction r <> Rzero2 ->
  match bb2_intersect_ray (XB2 b) (XR2 r) with
  | None => forall t : R, 0 <= t -> ~ seen2 b r t
  | Some (s, e) => exists s' e' : R, s = Fin s' /\ e = Fin e' /\ 0 <= s' <= e' /\ (forall t : R, 0 <= t -> (seen2 b r t <-> s' <= t <= e')) /\
      (forall t : R, s' <= t <= e' -> bb2_is_inside (XB2 b) (r2_at (XR2 r) (Fin t)) = true)
  end.
Proof. exact C17_what_is_reported_2d_pf. Qed.
Print Assumptions C17_what_is_reported_2d.
Theorem C17_what_is_reported_3d : forall (b : BoundingBox3 R) (r : Ray3 R), Rordered3 b -> r3_direction r <> Rzero3 ->
  match bb3_intersect_ray (XB3 b) (XR3 r) with
  | None => forall t : R, 0 <= t -> ~ seen3 b r t
  | Some (s, e) => exists s' e' : R, s = Fin s' /\ e = Fin e' /\ 0 <= s' <= e' /\ (forall t : R, 0 <= t -> (seen3 b r t <-> s' <= t <= e')) /\
      (forall t : R, s' <= t <= e' -> bb3_is_inside (XB3 b) (r3_at (XR3 r) (Fin t)) = true)
  end.
Proof. exact C17_what_is_reported_3d_pf. Qed.
Print Assumptions C17_what_is_reported_3d.
Theorem C17_every_face_ray_is_missed_2d : forall (b : BoundingBox2 R) (r : Ray2 R), Rordered2 b -> v2x (r2_direction r) = 0 -> v2y (r2_direction r) <> 0 ->
  p2x (bb2_min b) < p2x (bb2_max b) -> (p2x (r2_origin r) = p2x (bb2_min b) \/ p2x (r2_origin r) = p2x (bb2_max b)) ->
  bb2_intersect_ray (XB2 b) (XR2 r) = None.
Proof. exact C17_every_face_ray_is_missed_2d_pf. Qed.
Print Assumptions C17_every_face_ray_is_missed_2d.
Theorem C17_face_ray_refuted_2d : ~ (forall (b : BoundingBox2 R) (r : Ray2 R), Rordered2 b -> r2_direction r <> Rzero2 ->
   (exists t : R, 0 <= t /\ bb2_is_inside (XB2 b) (r2_at (XR2 r) (Fin t)) = true) -> bb2_intersect_ray (XB2 b) (XR2 r) <> None).
Proof. exact C17_face_ray_refuted_2d_pf. Qed.
Print Assumptions C17_face_ray_refuted_2d.
Theorem C17_every_face_ray_is_missed_3d : forall (b : BoundingBox3 R) (r : Ray3 R), Rordered3 b -> v3x (r3_direction r) = 0 -> r3_direction r <> Rzero3 ->
  p3x (bb3_min b) < p3x (bb3_max b) -> (p3x (r3_origin r) = p3x (bb3_min b) \/ p3x (r3_origin r) = p3x (bb3_max b)) ->
  bb3_intersect_ray (XB3 b) (XR3 r) = None.
Proof. exact C17_every_face_ray_is_missed_3d_pf. Qed.
Print Assumptions C17_every_face_ray_is_missed_3d.
Theorem C17_face_ray_refuted_3d : ~ (forall (b : BoundingBox3 R) (r : Ray3 R), Rordered3 b -> r3_direction r <> Rzero3 ->
   (exists t : R, 0 <= t /\ bb3_is_inside (XB3 b) (r3_at (XR3 r) (Fin t)) = true) -> bb3_intersect_ray (XB3 b) (XR3 r) <> None).
Proof. exact C17_face_ray_refuted_3d_pf. Qed.
Print Assumptions C17_face_ray_refuted_3d.
(** ** C13 (exact part): the centre is the midpoint, and inside *)
Theorem C13_center_exact_2d : forall b : BoundingBox2 R,
  bb2_center (XB2 b) = XP2 (mkPoint2 ((p2x (bb2_min b) + p2x (bb2_max b)) / 2) ((p2y (bb2_min b) + p2y (bb2_max b)) / 2)) /\
  (Rordered2 b -> bb2_is_inside (XB2 b) (bb2_center (XB2 b)) = true).
Proof. exact C13_center_exact_2d_pf. Qed.
Print Assumptions C13_center_exact_2d.
Theorem C13_center_exact_3d : forall b : BoundingBox3 R,
  bb3_center (XB3 b) = XP3 (mkPoint3 ((p3x (bb3_min b) + p3x (bb3_max b)) / 2) ((p3y (bb3_min b) + p3y (bb3_max b)) / 2) ((p3z (bb3_min b) + p3z (bb3_max b)) / 2)) /\
  (Rordered3 b -> bb3_is_inside (XB3 b) (bb3_center (XB3 b)) = true).
Proof. exact C13_center_exact_3d_pf. Qed.
Print Assumptions C13_center_exact_3d.
(** ** C15 (exact part): area, surface area and volume *)
Theorem C15_area_2d : forall a b : BoundingBox2 R,
  bb2_area (XB2 b) = Fin ((p2x (bb2_max b) - p2x (bb2_min b)) * (p2y (bb2_max b) - p2y (bb2_min b))) /\
  (Rordered2 a -> xle (Fin 0) (bb2_area (XB2 a)) = true) /\
  (Rordered2 a -> Rsub_box2 a b -> xle (bb2_area (XB2 a)) (bb2_area (XB2 b)) = true).
Proof. exact C15_area_2d_pf. Qed.
Print Assumptions C15_area_2d.
Theorem C15_volume_and_surface_3d : forall a b : BoundingBox3 R,
  let w := (fun b => p3x (bb3_max b) - p3x (bb3_min b)) in let h := (fun b => p3y (bb3_max b) - p3y (bb3_min b)) in
  let d := (fun b => p3z (bb3_max b) - p3z (bb3_min b)) in
  bb3_volume (XB3 b) = Fin (w b * h b * d b) /\
  bb3_surface_area (XB3 b) = Fin (2 * (w b * h b + w b * d b + h b * d b)) /\
  (Rordered3 a -> xle (Fin 0) (bb3_volume (XB3 a)) = true /\ xle (Fin 0) (bb3_surface_area (XB3 a)) = true) /\
  (Rordered3 a -> Rsub_box3 a b -> xle (bb3_volume (XB3 a)) (bb3_volume (XB3 b)) = true /\
                                   xle (bb3_surface_area (XB3 a)) (bb3_surface_area (XB3 b)) = true).
Proof. exact C15_volume_and_surface_3d_pf. Qed.
Print Assumptions C15_volume_and_surface_3d.
Example C15_example_3d : let a := mkBB3 (mkPoint3 0 0 0) (mkPoint3 1 1 1) in let b := mkBB3 (mkPoint3 0 0 0) (mkPoint3 1 2 3) in
  Rordered3 a /\ Rsub_box3 a b.
Proof. cbv zeta. split; [unfold Rordered3; cbn; lra|]. intros p. unfold Rin3. cbn. lra. Qed.
(** ** C19: a ray and the empty box; the property is refuted, every finite ray is reported to hit the empty box everywhere *)
Theorem C19_every_ray_hits_the_empty_box_2d : forall r : Ray2 R, bb2_intersect_ray bb2_empty (XR2 r) = Some (Fin 0, PInf).
Proof. exact C19_every_ray_hits_the_empty_box_2d_pf. Qed.
Print Assumptions C19_every_ray_hits_the_empty_box_2d.
Theorem C19_every_ray_hits_the_empty_box_3d : forall r : Ray3 R, bb3_intersect_ray bb3_empty (XR3 r) = Some (Fin 0, PInf).
Proof. exact C19_every_ray_hits_the_empty_box_3d_pf. Qed.
Print Assumptions C19_every_ray_hits_the_empty_box_3d.
Theorem C19_empty_box_refuted_2d : ~ (forall r : Ray2 R, bb2_intersect_ray bb2_empty (XR2 r) = None).
Proof. exact C19_empty_box_refuted_2d_pf. Qed.
Print Assumptions C19_empty_box_refuted_2d.
Theorem C19_empty_box_refuted_3d : ~ (forall r : Ray3 R, bb3_intersect_ray bb3_empty (XR3 r) = None).
Proof. exact C19_empty_box_refuted_3d_pf. Qed.
Print Assumptions C19_empty_box_refuted_3d.
Theorem C19_infinite_box_2d : forall r : Ray2 R, bb2_intersect_ray bb2_infinite (XR2 r) = Some (Fin 0, PInf).
Proof. exact C19_infinite_box_2d_pf. Qed.
Print Assumptions C19_infinite_box_2d.
Theorem C19_infinite_box_3d : forall r : Ray3 R, bb3_intersect_ray bb3_infinite (XR3 r) = Some (Fin 0, PInf).
Proof. exact C19_infinite_box_3d_pf. Qed.
Print Assumptions C19_infinite_box_3d.
