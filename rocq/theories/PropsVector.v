(** Property theorems in exact arithmetic: vectors, points, rays (C20-C23, C25, C27-C29, C52).
    [XV2 a], [XP3 p], ... read a tuple of real numbers as finite values of the exact scalar type (SpecReal.v). *)
From Coq Require Import Bool ZArith Reals Lra.
From Verif Require Import Scalar Types Vector2 Vector3 Point2 Point3 Ray XReal OrdLaws Arith SpecOrder SpecReal ExactVec Comm MatComm.
Local Open Scope R_scope.
(** ** C20: dot product *)
Theorem C20_dot_symmetric_2d : forall (A : arith) (a b : Vector2 (num A)), v2_dot a b = v2_dot b a.
Proof. exact (fun A => v2_dot_comm). Qed.
Print Assumptions C20_dot_symmetric_2d.
Theorem C20_dot_symmetric_3d : forall (A : arith) (a b : Vector3 (num A)), v3_dot a b = v3_dot b a.
Proof. exact (fun A => v3_dot_comm). Qed.
Print Assumptions C20_dot_symmetric_3d.
Theorem C20_dot_value_2d : forall a b : Vector2 R, v2_dot (XV2 a) (XV2 b) = Fin (Rdot2 a b).
Proof. exact C20_dot_value_2d_pf. Qed.
Print Assumptions C20_dot_value_2d.
Theorem C20_dot_value_3d : forall a b : Vector3 R, v3_dot (XV3 a) (XV3 b) = Fin (Rdot3 a b).
Proof. exact C20_dot_value_3d_pf. Qed.
Print Assumptions C20_dot_value_3d.
Theorem C20_dot_bilinear_2d : forall (a b c : Vector2 R) (s : R),
  v2_dot (v2_add (XV2 a) (XV2 b)) (XV2 c) = sadd (v2_dot (XV2 a) (XV2 c)) (v2_dot (XV2 b) (XV2 c)) /\
  v2_dot (XV2 c) (v2_add (XV2 a) (XV2 b)) = sadd (v2_dot (XV2 c) (XV2 a)) (v2_dot (XV2 c) (XV2 b)) /\
  v2_dot (v2_mul (XV2 a) (Fin s)) (XV2 b) = smul (Fin s) (v2_dot (XV2 a) (XV2 b)) /\
  v2_dot (XV2 a) (v2_mul (XV2 b) (Fin s)) = smul (Fin s) (v2_dot (XV2 a) (XV2 b)).
Proof. exact C20_dot_bilinear_2d_pf. Qed.
Print Assumptions C20_dot_bilinear_2d.
Theorem C20_dot_bilinear_3d : forall (a b c : Vector3 R) (s : R),
  v3_dot (v3_add (XV3 a) (XV3 b)) (XV3 c) = sadd (v3_dot (XV3 a) (XV3 c)) (v3_dot (XV3 b) (XV3 c)) /\
  v3_dot (XV3 c) (v3_add (XV3 a) (XV3 b)) = sadd (v3_dot (XV3 c) (XV3 a)) (v3_dot (XV3 c) (XV3 b)) /\
  v3_dot (v3_mul (XV3 a) (Fin s)) (XV3 b) = smul (Fin s) (v3_dot (XV3 a) (XV3 b)) /\
  v3_dot (XV3 a) (v3_mul (XV3 b) (Fin s)) = smul (Fin s) (v3_dot (XV3 a) (XV3 b)).
Proof. exact C20_dot_bilinear_3d_pf. Qed.
Print Assumptions C20_dot_bilinear_3d.
Theorem C20_dot_positive_definite_2d : forall a : Vector2 R,
  Le (Fin 0) (v2_dot (XV2 a) (XV2 a)) /\ (v2_dot (XV2 a) (XV2 a) = Fin 0 <-> a = Rzero2).
Proof. exact C20_dot_positive_definite_2d_pf. Qed.
Print Assumptions C20_dot_positive_definite_2d.
Theorem C20_dot_positive_definite_3d : forall a : Vector3 R,
  Le (Fin 0) (v3_dot (XV3 a) (XV3 a)) /\ (v3_dot (XV3 a) (XV3 a) = Fin 0 <-> a = Rzero3).
Proof. exact C20_dot_positive_definite_3d_pf. Qed.
Print Assumptions C20_dot_positive_definite_3d.
Theorem C20_cauchy_schwarz_2d : forall a b : Vector2 R,
  Le (sabs (v2_dot (XV2 a) (XV2 b))) (smul (v2_length (XV2 a)) (v2_length (XV2 b))).
Proof. exact C20_cauchy_schwarz_2d_pf. Qed.
Print Assumptions C20_cauchy_schwarz_2d.
Theorem C20_cauchy_schwarz_3d : forall a b : Vector3 R,
  Le (sabs (v3_dot (XV3 a) (XV3 b))) (smul (v3_length (XV3 a)) (v3_length (XV3 b))).
Proof. exact C20_cauchy_schwarz_3d_pf. Qed.
Print Assumptions C20_cauchy_schwarz_3d.
(** ** C21: cross product *)
Theorem C21_cross_value : forall a b : Vector3 R,
  v3_cross (XV3 a) (XV3 b) = XV3 (mkVector3 (v3y a * v3z b - v3z a * v3y b)
                                            (v3z a * v3x b - v3x a * v3z b)
                                            (v3x a * v3y b - v3y a * v3x b)).
Proof. exact C21_cross_value_pf. Qed.
Print Assumptions C21_cross_value.
Theorem C21_cross_orthogonal : forall a b : Vector3 R,
  v3_dot (XV3 a) (v3_cross (XV3 a) (XV3 b)) = Fin 0 /\ v3_dot (XV3 b) (v3_cross (XV3 a) (XV3 b)) = Fin 0.
Proof. exact C21_cross_orthogonal_pf. Qed.
Print Assumptions C21_cross_orthogonal.
Theorem C21_cross_anticommutative_bilinear : forall (a b c : Vector3 R) (s : R),
  v3_cross (XV3 a) (XV3 b) = v3_neg (v3_cross (XV3 b) (XV3 a)) /\
  v3_cross (v3_add (XV3 a) (XV3 b)) (XV3 c) = v3_add (v3_cross (XV3 a) (XV3 c)) (v3_cross (XV3 b) (XV3 c)) /\
  v3_cross (XV3 c) (v3_add (XV3 a) (XV3 b)) = v3_add (v3_cross (XV3 c) (XV3 a)) (v3_cross (XV3 c) (XV3 b)) /\
  v3_cross (v3_mul (XV3 a) (Fin s)) (XV3 b) = v3_mul (v3_cross (XV3 a) (XV3 b)) (Fin s) /\
  v3_cross (XV3 a) (v3_mul (XV3 b) (Fin s)) = v3_mul (v3_cross (XV3 a) (XV3 b)) (Fin s).
Proof. exact C21_cross_anticommutative_bilinear_pf. Qed.
Print Assumptions C21_cross_anticommutative_bilinear.
Theorem C21_cross_lagrange : forall a b : Vector3 R,
  let n := v3_cross (XV3 a) (XV3 b) in
  v3_dot n n = ssub (smul (v3_dot (XV3 a) (XV3 a)) (v3_dot (XV3 b) (XV3 b)))
                    (smul (v3_dot (XV3 a) (XV3 b)) (v3_dot (XV3 a) (XV3 b))).
Proof. exact C21_cross_lagrange_pf. Qed.
Print Assumptions C21_cross_lagrange.
Theorem C21_cross_zero_iff_parallel : forall a b : Vector3 R,
  v3_cross (XV3 a) (XV3 b) = v3_zero <->
  exists s t, (s <> 0 \/ t <> 0) /\ v3_add (v3_mul (XV3 a) (Fin s)) (v3_mul (XV3 b) (Fin t)) = v3_zero.
Proof. exact C21_cross_zero_iff_parallel_pf. Qed.
Print Assumptions C21_cross_zero_iff_parallel.
Theorem C21_cross_jacobi : forall a b c : Vector3 R,
  v3_add (v3_add (v3_cross (XV3 a) (v3_cross (XV3 b) (XV3 c))) (v3_cross (XV3 b) (v3_cross (XV3 c) (XV3 a))))
         (v3_cross (XV3 c) (v3_cross (XV3 a) (XV3 b))) = v3_zero.
Proof. exact C21_cross_jacobi_pf. Qed.
Print Assumptions C21_cross_jacobi.
Theorem C21_cross_right_handed : v3_cross v3_x_axis v3_y_axis = (v3_z_axis : Vector3 xreal) /\
  v3_cross v3_y_axis v3_z_axis = (v3_x_axis : Vector3 xreal) /\
  v3_cross v3_z_axis v3_x_axis = (v3_y_axis : Vector3 xreal).
Proof. exact C21_cross_right_handed_pf. Qed.
Print Assumptions C21_cross_right_handed.
Example C21_example : v3_cross (XV3 (mkVector3 1 2 3)) (XV3 (mkVector3 4 5 6)) <> v3_zero.
Proof. rewrite C21_cross_value. cbn. intros H. injection H. lra. Qed.
(** ** C22: length *)
Theorem C22_length_value_2d : forall a : Vector2 R,
  v2_length (XV2 a) = Fin (Rnorm2 a) /\ v2_length (XV2 a) = ssqrt (v2_dot (XV2 a) (XV2 a)) /\
  smul (v2_length (XV2 a)) (v2_length (XV2 a)) = v2_dot (XV2 a) (XV2 a).
Proof. exact C22_length_value_2d_pf. Qed.
Print Assumptions C22_length_value_2d.
Theorem C22_length_value_3d : forall a : Vector3 R,
  v3_length (XV3 a) = Fin (Rnorm3 a) /\ v3_length (XV3 a) = ssqrt (v3_dot (XV3 a) (XV3 a)) /\
  smul (v3_length (XV3 a)) (v3_length (XV3 a)) = v3_dot (XV3 a) (XV3 a).
Proof. exact C22_length_value_3d_pf. Qed.
Print Assumptions C22_length_value_3d.
Theorem C22_length_zero_iff_2d : forall a : Vector2 R, Le (Fin 0) (v2_length (XV2 a)) /\ (v2_length (XV2 a) = Fin 0 <-> a = Rzero2).
Proof. exact C22_length_zero_iff_2d_pf. Qed.
Print Assumptions C22_length_zero_iff_2d.
Theorem C22_length_zero_iff_3d : forall a : Vector3 R, Le (Fin 0) (v3_length (XV3 a)) /\ (v3_length (XV3 a) = Fin 0 <-> a = Rzero3).
Proof. exact C22_length_zero_iff_3d_pf. Qed.
Print Assumptions C22_length_zero_iff_3d.
Theorem C22_length_homogeneous_2d : forall (a : Vector2 R) (s : R),
  v2_length (v2_mul (XV2 a) (Fin s)) = smul (sabs (Fin s)) (v2_length (XV2 a)) /\
  v2_length (v2_neg (XV2 a)) = v2_length (XV2 a).
Proof. exact C22_length_homogeneous_2d_pf. Qed.
Print Assumptions C22_length_homogeneous_2d.
Theorem C22_length_homogeneous_3d : forall (a : Vector3 R) (s : R),
  v3_length (v3_mul (XV3 a) (Fin s)) = smul (sabs (Fin s)) (v3_length (XV3 a)) /\
  v3_length (v3_neg (XV3 a)) = v3_length (XV3 a).
Proof. exact C22_length_homogeneous_3d_pf. Qed.
Print Assumptions C22_length_homogeneous_3d.
Theorem C22_length_triangle_2d : forall a b : Vector2 R,
  Le (v2_length (v2_add (XV2 a) (XV2 b))) (sadd (v2_length (XV2 a)) (v2_length (XV2 b))).
Proof. exact C22_length_triangle_2d_pf. Qed.
Print Assumptions C22_length_triangle_2d.
Theorem C22_length_triangle_3d : forall a b : Vector3 R,
  Le (v3_length (v3_add (XV3 a) (XV3 b))) (sadd (v3_length (XV3 a)) (v3_length (XV3 b))).
Proof. exact C22_length_triangle_3d_pf. Qed.
Print Assumptions C22_length_triangle_3d.
(** ** C23: normalize *)
Theorem C23_normalize_unit_2d : forall a : Vector2 R, a <> Rzero2 ->
  v2_length (v2_normalize (XV2 a)) = Fin 1 /\
  v2_mul (v2_normalize (XV2 a)) (v2_length (XV2 a)) = XV2 a /\
  Lt (Fin 0) (v2_length (XV2 a)).
Proof. exact C23_normalize_unit_2d_pf. Qed.
Print Assumptions C23_normalize_unit_2d.
Theorem C23_normalize_unit_3d : forall a : Vector3 R, a <> Rzero3 ->
  v3_length (v3_normalize (XV3 a)) = Fin 1 /\
  v3_mul (v3_normalize (XV3 a)) (v3_length (XV3 a)) = XV3 a /\
  Lt (Fin 0) (v3_length (XV3 a)).
Proof. exact C23_normalize_unit_3d_pf. Qed.
Print Assumptions C23_normalize_unit_3d.
Theorem C23_normalize_idempotent_2d : forall a : Vector2 R, a <> Rzero2 ->
  v2_normalize (v2_normalize (XV2 a)) = v2_normalize (XV2 a).
Proof. exact C23_normalize_idempotent_2d_pf. Qed.
Print Assumptions C23_normalize_idempotent_2d.
Theorem C23_normalize_idempotent_3d : forall a : Vector3 R, a <> Rzero3 ->
  v3_normalize (v3_normalize (XV3 a)) = v3_normalize (XV3 a).
Proof. exact C23_normalize_idempotent_3d_pf. Qed.
Print Assumptions C23_normalize_idempotent_3d.
Theorem C23_normalize_scaling_2d : forall (a : Vector2 R) (s : R), a <> Rzero2 -> 0 < s ->
  v2_normalize (v2_mul (XV2 a) (Fin s)) = v2_normalize (XV2 a).
Proof. exact C23_normalize_scaling_2d_pf. Qed.
Print Assumptions C23_normalize_scaling_2d.
Theorem C23_normalize_scaling_3d : forall (a : Vector3 R) (s : R), a <> Rzero3 -> 0 < s ->
  v3_normalize (v3_mul (XV3 a) (Fin s)) = v3_normalize (XV3 a).
Proof. exact C23_normalize_scaling_3d_pf. Qed.
Print Assumptions C23_normalize_scaling_3d.
Example C23_example_2d : mkVector2 3 4 <> Rzero2 /\ 0 < 2.
Proof. split; [intros H; injection H; lra | lra]. Qed.
Example C23_example_3d : mkVector3 1 2 2 <> Rzero3 /\ 0 < 2.
Proof. split; [intros H; injection H; lra | lra]. Qed.
(** ** C25: relative length (exact part) *)
Theorem C25_relative_length_exact_2d : forall a b : Vector2 R,
  v2_is_shorter_than (XV2 a) (XV2 b) = slt (v2_length (XV2 a)) (v2_length (XV2 b)) /\
  v2_is_longer_than (XV2 a) (XV2 b) = slt (v2_length (XV2 b)) (v2_length (XV2 a)).
Proof. exact C25_relative_length_exact_2d_pf. Qed.
Print Assumptions C25_relative_length_exact_2d.
Theorem C25_relative_length_exact_3d : forall a b : Vector3 R,
  v3_is_shorter_than (XV3 a) (XV3 b) = slt (v3_length (XV3 a)) (v3_length (XV3 b)) /\
  v3_is_longer_than (XV3 a) (XV3 b) = slt (v3_length (XV3 b)) (v3_length (XV3 a)).
Proof. exact C25_relative_length_exact_3d_pf. Qed.
Print Assumptions C25_relative_length_exact_3d.
(** ** C27: distance is a metric (exact part) *)
Theorem C27_distance_value_2d : forall p q : Point2 R, p2_distance (XP2 p) (XP2 q) = Fin (Rdist2 p q).
Proof. exact C27_distance_value_2d_pf. Qed.
Print Assumptions C27_distance_value_2d.
Theorem C27_distance_value_3d : forall p q : Point3 R, p3_distance (XP3 p) (XP3 q) = Fin (Rdist3 p q).
Proof. exact C27_distance_value_3d_pf. Qed.
Print Assumptions C27_distance_value_3d.
Theorem C27_distance_metric_2d : forall p q r : Point2 R,
  Le (Fin 0) (p2_distance (XP2 p) (XP2 q)) /\
  (p2_distance (XP2 p) (XP2 q) = Fin 0 <-> p = q) /\
  p2_distance (XP2 p) (XP2 q) = p2_distance (XP2 q) (XP2 p) /\
  Le (p2_distance (XP2 p) (XP2 r)) (sadd (p2_distance (XP2 p) (XP2 q)) (p2_distance (XP2 q) (XP2 r))).
Proof. exact C27_distance_metric_2d_pf. Qed.
Print Assumptions C27_distance_metric_2d.
Theorem C27_distance_metric_3d : forall p q r : Point3 R,
  Le (Fin 0) (p3_distance (XP3 p) (XP3 q)) /\
  (p3_distance (XP3 p) (XP3 q) = Fin 0 <-> p = q) /\
  p3_distance (XP3 p) (XP3 q) = p3_distance (XP3 q) (XP3 p) /\
  Le (p3_distance (XP3 p) (XP3 r)) (sadd (p3_distance (XP3 p) (XP3 q)) (p3_distance (XP3 q) (XP3 r))).
Proof. exact C27_distance_metric_3d_pf. Qed.
Print Assumptions C27_distance_metric_3d.
(** ** C28: closest / farthest (exact part) *)
Theorem C28_relative_distance_exact_2d : forall p a b : Point2 R,
  p2_is_closer_to (XP2 p) (XP2 a) (XP2 b) = slt (p2_distance (XP2 p) (XP2 a)) (p2_distance (XP2 p) (XP2 b)) /\
  p2_is_farther_from (XP2 p) (XP2 a) (XP2 b) = slt (p2_distance (XP2 p) (XP2 b)) (p2_distance (XP2 p) (XP2 a)).
Proof. exact C28_relative_distance_exact_2d_pf. Qed.
Print Assumptions C28_relative_distance_exact_2d.
Theorem C28_relative_distance_exact_3d : forall p a b : Point3 R,
  p3_is_closer_to (XP3 p) (XP3 a) (XP3 b) = slt (p3_distance (XP3 p) (XP3 a)) (p3_distance (XP3 p) (XP3 b)) /\
  p3_is_farther_from (XP3 p) (XP3 a) (XP3 b) = slt (p3_distance (XP3 p) (XP3 b)) (p3_distance (XP3 p) (XP3 a)).
Proof. exact C28_relative_distance_exact_3d_pf. Qed.
Print Assumptions C28_relative_distance_exact_3d.
(** ** C29: affine arithmetic *)
Theorem C29_points_and_vectors_2d : forall (p q : Point2 R) (u v : Vector2 R),
  p2_sub_v (p2_add (XP2 p) (XV2 v)) (XV2 v) = XP2 p /\
  p2_add (p2_sub_v (XP2 p) (XV2 v)) (XV2 v) = XP2 p /\
  p2_add (XP2 p) (p2_sub (XP2 q) (XP2 p)) = XP2 q /\
  p2_add (p2_add (XP2 p) (XV2 u)) (XV2 v) = p2_add (XP2 p) (v2_add (XV2 u) (XV2 v)) /\
  p2_sub (p2_add (XP2 p) (XV2 v)) (XP2 p) = XV2 v /\
  p2_sub (XP2 p) (XP2 p) = v2_zero /\
  p2_add (XP2 p) v2_zero = XP2 p /\
  p2_sub_v (XP2 p) (XV2 v) = p2_add (XP2 p) (v2_neg (XV2 v)).
Proof. exact C29_points_and_vectors_2d_pf. Qed.
Print Assumptions C29_points_and_vectors_2d.
Theorem C29_points_and_vectors_3d : forall (p q : Point3 R) (u v : Vector3 R),
  p3_sub_v (p3_add (XP3 p) (XV3 v)) (XV3 v) = XP3 p /\
  p3_add (p3_sub_v (XP3 p) (XV3 v)) (XV3 v) = XP3 p /\
  p3_add (XP3 p) (p3_sub (XP3 q) (XP3 p)) = XP3 q /\
  p3_add (p3_add (XP3 p) (XV3 u)) (XV3 v) = p3_add (XP3 p) (v3_add (XV3 u) (XV3 v)) /\
  p3_sub (p3_add (XP3 p) (XV3 v)) (XP3 p) = XV3 v /\
  p3_sub (XP3 p) (XP3 p) = v3_zero /\
  p3_add (XP3 p) v3_zero = XP3 p /\
  p3_sub_v (XP3 p) (XV3 v) = p3_add (XP3 p) (v3_neg (XV3 v)).
Proof. exact C29_points_and_vectors_3d_pf. Qed.
Print Assumptions C29_points_and_vectors_3d.
Theorem C29_vector_space_2d : forall (u v w : Vector2 R) (s t : R),
  v2_add (v2_add (XV2 u) (XV2 v)) (XV2 w) = v2_add (XV2 u) (v2_add (XV2 v) (XV2 w)) /\
  v2_add (XV2 u) (XV2 v) = v2_add (XV2 v) (XV2 u) /\
  v2_add (XV2 u) v2_zero = XV2 u /\
  v2_add (XV2 u) (v2_neg (XV2 u)) = v2_zero /\
  v2_sub (XV2 u) (XV2 v) = v2_add (XV2 u) (v2_neg (XV2 v)) /\
  v2_mul (v2_add (XV2 u) (XV2 v)) (Fin s) = v2_add (v2_mul (XV2 u) (Fin s)) (v2_mul (XV2 v) (Fin s)) /\
  v2_mul (XV2 u) (sadd (Fin s) (Fin t)) = v2_add (v2_mul (XV2 u) (Fin s)) (v2_mul (XV2 u) (Fin t)) /\
  v2_mul (v2_mul (XV2 u) (Fin s)) (Fin t) = v2_mul (XV2 u) (smul (Fin s) (Fin t)) /\
  v2_mul (XV2 u) (Fin 1) = XV2 u /\
  v2_lmul (Fin s) (XV2 u) = v2_mul (XV2 u) (Fin s).
Proof. exact C29_vector_space_2d_pf. Qed.
Print Assumptions C29_vector_space_2d.
Theorem C29_vector_space_3d : forall (u v w : Vector3 R) (s t : R),
  v3_add (v3_add (XV3 u) (XV3 v)) (XV3 w) = v3_add (XV3 u) (v3_add (XV3 v) (XV3 w)) /\
  v3_add (XV3 u) (XV3 v) = v3_add (XV3 v) (XV3 u) /\
  v3_add (XV3 u) v3_zero = XV3 u /\
  v3_add (XV3 u) (v3_neg (XV3 u)) = v3_zero /\
  v3_sub (XV3 u) (XV3 v) = v3_add (XV3 u) (v3_neg (XV3 v)) /\
  v3_mul (v3_add (XV3 u) (XV3 v)) (Fin s) = v3_add (v3_mul (XV3 u) (Fin s)) (v3_mul (XV3 v) (Fin s)) /\
  v3_mul (XV3 u) (sadd (Fin s) (Fin t)) = v3_add (v3_mul (XV3 u) (Fin s)) (v3_mul (XV3 u) (Fin t)) /\
  v3_mul (v3_mul (XV3 u) (Fin s)) (Fin t) = v3_mul (XV3 u) (smul (Fin s) (Fin t)) /\
  v3_mul (XV3 u) (Fin 1) = XV3 u /\
  v3_lmul (Fin s) (XV3 u) = v3_mul (XV3 u) (Fin s).
Proof. exact C29_vector_space_3d_pf. Qed.
Print Assumptions C29_vector_space_3d.
Theorem C29_scalar_division_2d : forall (u : Vector2 R) (p : Point2 R) (s : R), s <> 0 ->
  v2_div (v2_mul (XV2 u) (Fin s)) (Fin s) = XV2 u /\ v2_mul (v2_div (XV2 u) (Fin s)) (Fin s) = XV2 u /\
  v2_div (XV2 u) (Fin s) = v2_mul (XV2 u) (srecip (Fin s)) /\
  p2_div (p2_mul (XP2 p) (Fin s)) (Fin s) = XP2 p /\ p2_mul (p2_div (XP2 p) (Fin s)) (Fin s) = XP2 p /\
  p2_div (XP2 p) (Fin s) = p2_mul (XP2 p) (srecip (Fin s)).
Proof. exact C29_scalar_division_2d_pf. Qed.
Print Assumptions C29_scalar_division_2d.
Theorem C29_scalar_division_3d : forall (u : Vector3 R) (p : Point3 R) (s : R), s <> 0 ->
  v3_div (v3_mul (XV3 u) (Fin s)) (Fin s) = XV3 u /\ v3_mul (v3_div (XV3 u) (Fin s)) (Fin s) = XV3 u /\
  v3_div (XV3 u) (Fin s) = v3_mul (XV3 u) (srecip (Fin s)) /\
  p3_div (p3_mul (XP3 p) (Fin s)) (Fin s) = XP3 p /\ p3_mul (p3_div (XP3 p) (Fin s)) (Fin s) = XP3 p /\
  p3_div (XP3 p) (Fin s) = p3_mul (XP3 p) (srecip (Fin s)).
Proof. exact C29_scalar_division_3d_pf. Qed.
Print Assumptions C29_scalar_division_3d.
Theorem C29_conversions_2d : forall (p q : Point2 R) (u v : Vector2 R) (s : R),
  p2_from (v2_from (XP2 p)) = XP2 p /\ v2_from (p2_from (XV2 v)) = XV2 v /\
  v2_from (XP2 p) = p2_sub (XP2 p) p2_origin /\ p2_from (XV2 v) = p2_add p2_origin (XV2 v) /\
  v2_from (p2_add (XP2 p) (XV2 v)) = v2_add (v2_from (XP2 p)) (XV2 v) /\
  v2_from (p2_mul (XP2 p) (Fin s)) = v2_mul (v2_from (XP2 p)) (Fin s) /\
  v2_from (p2_neg (XP2 p)) = v2_neg (v2_from (XP2 p)) /\
  p2_sub (XP2 p) (XP2 q) = v2_sub (v2_from (XP2 p)) (v2_from (XP2 q)) /\
  p2_from (v2_add (XV2 u) (XV2 v)) = p2_add (p2_from (XV2 u)) (XV2 v).
Proof. exact C29_conversions_2d_pf. Qed.
Print Assumptions C29_conversions_2d.
Theorem C29_conversions_3d : forall (p q : Point3 R) (u v : Vector3 R) (s : R),
  p3_from (v3_from (XP3 p)) = XP3 p /\ v3_from (p3_from (XV3 v)) = XV3 v /\
  v3_from (XP3 p) = p3_sub (XP3 p) p3_origin /\ p3_from (XV3 v) = p3_add p3_origin (XV3 v) /\
  v3_from (p3_add (XP3 p) (XV3 v)) = v3_add (v3_from (XP3 p)) (XV3 v) /\
  v3_from (p3_mul (XP3 p) (Fin s)) = v3_mul (v3_from (XP3 p)) (Fin s) /\
  v3_from (p3_neg (XP3 p)) = v3_neg (v3_from (XP3 p)) /\
  p3_sub (XP3 p) (XP3 q) = v3_sub (v3_from (XP3 p)) (v3_from (XP3 q)) /\
  p3_from (v3_add (XV3 u) (XV3 v)) = p3_add (p3_from (XV3 u)) (XV3 v).
Proof. exact C29_conversions_3d_pf. Qed.
Print Assumptions C29_conversions_3d.
(** ** C52: ray evaluation (exact part) *)
Theorem C52_ray_at_exact_2d : forall (r : Ray2 R) (s t : R),
  r2_at (XR2 r) (Fin 0) = XP2 (r2_origin r) /\
  p2_sub (r2_at (XR2 r) (Fin s)) (r2_at (XR2 r) (Fin t)) = v2_mul (XV2 (r2_direction r)) (Fin (s - t)) /\
  r2_at (XR2 r) (Fin s) = p2_add (XP2 (r2_origin r)) (v2_mul (XV2 (r2_direction r)) (Fin s)).
Proof. exact C52_ray_at_exact_2d_pf. Qed.
Print Assumptions C52_ray_at_exact_2d.
Theorem C52_ray_at_exact_3d : forall (r : Ray3 R) (s t : R),
  r3_at (XR3 r) (Fin 0) = XP3 (r3_origin r) /\
  p3_sub (r3_at (XR3 r) (Fin s)) (r3_at (XR3 r) (Fin t)) = v3_mul (XV3 (r3_direction r)) (Fin (s - t)) /\
  r3_at (XR3 r) (Fin s) = p3_add (XP3 (r3_origin r)) (v3_mul (XV3 (r3_direction r)) (Fin s)).
Proof. exact C52_ray_at_exact_3d_pf. Qed.
Print Assumptions C52_ray_at_exact_3d.
