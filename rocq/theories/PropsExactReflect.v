(** Theorems: C121 (projections, reflections and the nearest point of a ray).  Exact arithmetic. *)
From Coq Require Import Bool NArith ZArith Reals List Lra.
From Verif Require Import Scalar Types Vector2 Vector3 Point2 Point3 Ray
  XReal OrdLaws Arith SpecOrder SpecReal SpecReflect XTac ExactBase ExactVec ExactReflect.
Local Open Scope R_scope.
(** the projection on n: the rest is perpendicular to n, the squared lengths add up, projecting twice changes nothing, and no projection is longer *)
Theorem C121_projection_2d : forall (v n : Vector2 R), n <> Rzero2 -> let p := project2 (XV2 v) (XV2 n) in let rest := v2_sub (XV2 v) p in
  v2_dot rest (XV2 n) = Fin 0 /\ project2 p (XV2 n) = p /\
  v2_dot (XV2 v) (XV2 v) = sadd (v2_dot p p) (v2_dot rest rest) /\
  Le (v2_length p) (v2_length (XV2 v)).
Proof. exact C121_projection_2d_pf. Qed.
Print Assumptions C121_projection_2d.
Theorem C121_projection_3d : forall (v n : Vector3 R), n <> Rzero3 -> let p := project3 (XV3 v) (XV3 n) in let rest := v3_sub (XV3 v) p in
  v3_dot rest (XV3 n) = Fin 0 /\ project3 p (XV3 n) = p /\
  v3_dot (XV3 v) (XV3 v) = sadd (v3_dot p p) (v3_dot rest rest) /\
  Le (v3_length p) (v3_length (XV3 v)).
Proof. exact C121_projection_3d_pf. Qed.
Print Assumptions C121_projection_3d.
(** the mirror image in the plane with normal n: twice is the identity, dot products and lengths are kept, n is reversed, the plane is fixed *)
Theorem C121_reflection_2d : forall (v w n : Vector2 R), n <> Rzero2 ->
  reflect2 (reflect2 (XV2 v) (XV2 n)) (XV2 n) = XV2 v /\
  v2_dot (reflect2 (XV2 v) (XV2 n)) (reflect2 (XV2 w) (XV2 n)) = v2_dot (XV2 v) (XV2 w) /\
  v2_length (reflect2 (XV2 v) (XV2 n)) = v2_length (XV2 v) /\
  reflect2 (XV2 n) (XV2 n) = v2_neg (XV2 n) /\
  (v2_dot (XV2 w) (XV2 n) = Fin 0 -> reflect2 (XV2 w) (XV2 n) = XV2 w).
Proof. exact C121_reflection_2d_pf. Qed.
Print Assumptions C121_reflection_2d.
Theorem C121_reflection_3d : forall (v w n : Vector3 R), n <> Rzero3 ->
  reflect3 (reflect3 (XV3 v) (XV3 n)) (XV3 n) = XV3 v /\
  v3_dot (reflect3 (XV3 v) (XV3 n)) (reflect3 (XV3 w) (XV3 n)) = v3_dot (XV3 v) (XV3 w) /\
  v3_length (reflect3 (XV3 v) (XV3 n)) = v3_length (XV3 v) /\
  reflect3 (XV3 n) (XV3 n) = v3_neg (XV3 n) /\
  (v3_dot (XV3 w) (XV3 n) = Fin 0 -> reflect3 (XV3 w) (XV3 n) = XV3 w).
Proof. exact C121_reflection_3d_pf. Qed.
Print Assumptions C121_reflection_3d.
(** the nearest point of a line and of a ray *)
Theorem C121_nearest_point_2d : forall (r : Ray2 R) (p : Point2 R), r2_direction r <> Rzero2 ->
  v2_dot (p2_sub (XP2 p) (r2_at (XR2 r) (foot2 (XR2 r) (XP2 p)))) (XV2 (r2_direction r)) = Fin 0 /\
  (forall t : R, Le (p2_distance (XP2 p) (r2_at (XR2 r) (foot2 (XR2 r) (XP2 p)))) (p2_distance (XP2 p) (r2_at (XR2 r) (Fin t))) /\
     (p2_distance (XP2 p) (r2_at (XR2 r) (foot2 (XR2 r) (XP2 p))) = p2_distance (XP2 p) (r2_at (XR2 r) (Fin t)) <-> foot2 (XR2 r) (XP2 p) = Fin t)) /\
  (forall t : R, 0 <= t -> Le (p2_distance (XP2 p) (nearest_on2 (XR2 r) (XP2 p))) (p2_distance (XP2 p) (r2_at (XR2 r) (Fin t)))) /\
  (exists t : R, 0 <= t /\ nearest_on2 (XR2 r) (XP2 p) = r2_at (XR2 r) (Fin t)).
Proof. exact C121_nearest_point_2d_pf. Qed.
Print Assumptions C121_nearest_point_2d.
Theorem C121_nearest_point_3d : forall (r : Ray3 R) (p : Point3 R), r3_direction r <> Rzero3 ->
  v3_dot (p3_sub (XP3 p) (r3_at (XR3 r) (foot3 (XR3 r) (XP3 p)))) (XV3 (r3_direction r)) = Fin 0 /\
  (forall t : R, Le (p3_distance (XP3 p) (r3_at (XR3 r) (foot3 (XR3 r) (XP3 p)))) (p3_distance (XP3 p) (r3_at (XR3 r) (Fin t))) /\
     (p3_distance (XP3 p) (r3_at (XR3 r) (foot3 (XR3 r) (XP3 p))) = p3_distance (XP3 p) (r3_at (XR3 r) (Fin t)) <-> foot3 (XR3 r) (XP3 p) = Fin t)) /\
  (forall t : R, 0 <= t -> Le (p3_distance (XP3 p) (nearest_on3 (XR3 r) (XP3 p))) (p3_distance (XP3 p) (r3_at (XR3 r) (Fin t)))) /\
  (exists t : R, 0 <= t /\ nearest_on3 (XR3 r) (XP3 p) = r3_at (XR3 r) (Fin t)).
Proof. exact C121_nearest_point_3d_pf. Qed.
Print Assumptions C121_nearest_point_3d.
(** the distance of a point from a line is the length of the cross product over the length of the direction *)
Theorem C121_distance_to_line_3d : forall (r : Ray3 R) (p : Point3 R), r3_direction r <> Rzero3 ->
  smul (p3_distance (XP3 p) (r3_at (XR3 r) (foot3 (XR3 r) (XP3 p)))) (v3_length (XV3 (r3_direction r))) =
  v3_length (v3_cross (p3_sub (XP3 p) (XP3 (r3_origin r))) (XV3 (r3_direction r))).
Proof. exact C121_distance_to_line_3d_pf. Qed.
Print Assumptions C121_distance_to_line_3d.
(* (1, 3) is mirrored to (1, -3) in the plane with normal (0, 2); the foot of the perpendicular from (4, 5) to the ray (0, 0) + t (2, 0) is at t = 2 *)
Example C121_example_2d : rfn2 <> Rzero2 /\ r2_direction rfr2 <> Rzero2 /\ reflect2 (XV2 rfv2) (XV2 rfn2) = XV2 rfm2 /\ foot2 (XR2 rfr2) (XP2 rfp2) = Fin 2.
Proof. exact rf_facts2. Qed.
(* (1, 3) is mirrored to (1, -3) in the plane with normal (0, 2); the foot of the perpendicular from (4, 5) to the ray (0, 0) + t (2, 0) is at t = 2 *)
Example C121_example_3d : rfn3 <> Rzero3 /\ r3_direction rfr3 <> Rzero3 /\ reflect3 (XV3 rfv3) (XV3 rfn3) = XV3 rfm3 /\ foot3 (XR3 rfr3) (XP3 rfp3) = Fin 2.
Proof. exact rf_facts3. Qed.
