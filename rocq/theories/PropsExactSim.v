(** Theorems: C94 (similarities: chains of translations, rotations, look_at and uniform scalings keep shapes). *)
From Coq Require Import Bool NArith ZArith Reals List Lra.
From Verif Require Import Scalar Types Vector2 Vector3 Point2 Point3 Ray Transform2 Transform3
  XReal SpecReal SpecStruct SpecTrans SpecSim ExactSim.
Local Open Scope R_scope.
(** * C94: similarities *)
Theorem C94_similarity_3d : forall (t : Transform3 xreal) (k : R), Similar3 t k -> forall (p q : Point3 R) (u v : Vector3 R),
  p3_distance (t3_transform_point t (XP3 p)) (t3_transform_point t (XP3 q)) = Fin (Rabs k * Rdist3 p q) /\
  v3_length (t3_transform_vector t (XV3 v)) = Fin (Rabs k * Rnorm3 v) /\
  v3_dot (t3_transform_vector t (XV3 u)) (t3_transform_vector t (XV3 v)) = Fin (k * k * Rdot3 u v) /\
  v3_cross (t3_transform_vector t (XV3 u)) (t3_transform_vector t (XV3 v)) = v3_mul (t3_transform_vector t (v3_cross (XV3 u) (XV3 v))) (Fin k).
Proof. exact C94_similarity_3d_pf. Qed.
Print Assumptions C94_similarity_3d.
Theorem C94_similarity_2d : forall (t : Transform2 xreal) (k : R), Similar2 t k -> forall (p q : Point2 R) (u v : Vector2 R),
  p2_distance (t2_transform_point t (XP2 p)) (t2_transform_point t (XP2 q)) = Fin (Rabs k * Rdist2 p q) /\
  v2_length (t2_transform_vector t (XV2 v)) = Fin (Rabs k * Rnorm2 v) /\
  v2_dot (t2_transform_vector t (XV2 u)) (t2_transform_vector t (XV2 v)) = Fin (k * k * Rdot2 u v).
Proof. exact C94_similarity_2d_pf. Qed.
Print Assumptions C94_similarity_2d.
(** * comparisons of distances and lengths are unchanged, selections commute, normalised images make the same angle *)
Theorem C94_comparisons_unchanged_2d : forall (t : Transform2 xreal) (k : R), Similar2 t k -> forall (p a b : Point2 R) (u v : Vector2 R),
  p2_is_closer_to (t2_transform_point t (XP2 p)) (t2_transform_point t (XP2 a)) (t2_transform_point t (XP2 b)) = p2_is_closer_to (XP2 p) (XP2 a) (XP2 b) /\
  p2_is_farther_from (t2_transform_point t (XP2 p)) (t2_transform_point t (XP2 a)) (t2_transform_point t (XP2 b)) = p2_is_farther_from (XP2 p) (XP2 a) (XP2 b) /\
  p2_closest (t2_transform_point t (XP2 p)) (t2_transform_point t (XP2 a)) (t2_transform_point t (XP2 b)) = t2_transform_point t (p2_closest (XP2 p) (XP2 a) (XP2 b)) /\
  p2_farthest (t2_transform_point t (XP2 p)) (t2_transform_point t (XP2 a)) (t2_transform_point t (XP2 b)) = t2_transform_point t (p2_farthest (XP2 p) (XP2 a) (XP2 b)) /\
  v2_is_shorter_than (t2_transform_vector t (XV2 u)) (t2_transform_vector t (XV2 v)) = v2_is_shorter_than (XV2 u) (XV2 v) /\
  v2_is_longer_than (t2_transform_vector t (XV2 u)) (t2_transform_vector t (XV2 v)) = v2_is_longer_than (XV2 u) (XV2 v) /\
  v2_shortest (t2_transform_vector t (XV2 u)) (t2_transform_vector t (XV2 v)) = t2_transform_vector t (v2_shortest (XV2 u) (XV2 v)) /\
  v2_longest (t2_transform_vector t (XV2 u)) (t2_transform_vector t (XV2 v)) = t2_transform_vector t (v2_longest (XV2 u) (XV2 v)).
Proof. exact C94_comparisons_unchanged_2d_pf. Qed.
Print Assumptions C94_comparisons_unchanged_2d.
Theorem C94_comparisons_unchanged_3d : forall (t : Transform3 xreal) (k : R), Similar3 t k -> forall (p a b : Point3 R) (u v : Vector3 R),
  p3_is_closer_to (t3_transform_point t (XP3 p)) (t3_transform_point t (XP3 a)) (t3_transform_point t (XP3 b)) = p3_is_closer_to (XP3 p) (XP3 a) (XP3 b) /\
  p3_is_farther_from (t3_transform_point t (XP3 p)) (t3_transform_point t (XP3 a)) (t3_transform_point t (XP3 b)) = p3_is_farther_from (XP3 p) (XP3 a) (XP3 b) /\
  p3_closest (t3_transform_point t (XP3 p)) (t3_transform_point t (XP3 a)) (t3_transform_point t (XP3 b)) = t3_transform_point t (p3_closest (XP3 p) (XP3 a) (XP3 b)) /\
  p3_farthest (t3_transform_point t (XP3 p)) (t3_transform_point t (XP3 a)) (t3_transform_point t (XP3 b)) = t3_transform_point t (p3_farthest (XP3 p) (XP3 a) (XP3 b)) /\
  v3_is_shorter_than (t3_transform_vector t (XV3 u)) (t3_transform_vector t (XV3 v)) = v3_is_shorter_than (XV3 u) (XV3 v) /\
  v3_is_longer_than (t3_transform_vector t (XV3 u)) (t3_transform_vector t (XV3 v)) = v3_is_longer_than (XV3 u) (XV3 v) /\
  v3_shortest (t3_transform_vector t (XV3 u)) (t3_transform_vector t (XV3 v)) = t3_transform_vector t (v3_shortest (XV3 u) (XV3 v)) /\
  v3_longest (t3_transform_vector t (XV3 u)) (t3_transform_vector t (XV3 v)) = t3_transform_vector t (v3_longest (XV3 u) (XV3 v)).
Proof. exact C94_comparisons_unchanged_3d_pf. Qed.
Print Assumptions C94_comparisons_unchanged_3d.
Theorem C94_angles_unchanged_2d : forall (t : Transform2 xreal) (k : R), Similar2 t k -> forall u v : Vector2 R, u <> Rzero2 -> v <> Rzero2 ->
  v2_dot (v2_normalize (t2_transform_vector t (XV2 u))) (v2_normalize (t2_transform_vector t (XV2 v))) =
  v2_dot (v2_normalize (XV2 u)) (v2_normalize (XV2 v)).
Proof. exact C94_angles_unchanged_2d_pf. Qed.
Print Assumptions C94_angles_unchanged_2d.
Theorem C94_angles_unchanged_3d : forall (t : Transform3 xreal) (k : R), Similar3 t k -> forall u v : Vector3 R, u <> Rzero3 -> v <> Rzero3 ->
  v3_dot (v3_normalize (t3_transform_vector t (XV3 u))) (v3_normalize (t3_transform_vector t (XV3 v))) =
  v3_dot (v3_normalize (XV3 u)) (v3_normalize (XV3 v)).
Proof. exact C94_angles_unchanged_3d_pf. Qed.
Print Assumptions C94_angles_unchanged_3d.
(* a chain: look at a target, double, mirror, turn; the factor is -2 *)
Example C94_chain : exists t, t3_look_at dev_profile (XP3 (mkPoint3 1 2 3)) (XP3 (mkPoint3 1 2 7)) (XV3 (mkVector3 0 5 0)) = Ret (Ok t) /\
  Similar3 (t3_inverse (t3_and_then (t3_and_then t (t3_scale_uniform (Fin 2))) (t3_and_then (t3_scale (Fin (-1)) (Fin 1) (Fin 1)) (t3_rotate_axis (XV3 (mkVector3 1 2 2)) (Fin 1))))) (/ (1 * 2 * (-1 * 1 * 1 / (1 * 1) * 1))).
Proof.
  assert (I : Indep3 (mkVector3 0 5 0) (Rsub3 (mkPoint3 1 2 7) (mkPoint3 1 2 3))) by (intros a b; cbn; intros; split; lra).
  destruct (ExactTrans.C48_look_at_ok_pf dev_profile (mkPoint3 1 2 3) (mkPoint3 1 2 7) (mkVector3 0 5 0) I) as [t E]. exists t. split; [exact E|].
  apply S3_inverse. repeat apply S3_and_then.
  - exact (S3_look_at _ _ _ _ _ I E).
  - apply S3_scale_uniform. lra.
  - apply (S3_scale 1); lra.
  - apply S3_rotate_axis. intros H. injection H. lra.
Qed.
(* scaling the axes by different factors is not a similarity: a point closer before is farther after *)
Theorem C94_uneven_scaling_is_not_similar : ~ exists k, Similar2 (t2_scale (Fin 1) (Fin 3)) k.
Proof.
  intros [k S].
  pose proof (C94_similarity_2d_pf _ _ S (mkPoint2 0 0) (mkPoint2 0 0) (mkVector2 1 0) (mkVector2 1 0)) as (_ & _ & H1).
  pose proof (C94_similarity_2d_pf _ _ S (mkPoint2 0 0) (mkPoint2 0 0) (mkVector2 0 1) (mkVector2 0 1)) as (_ & _ & H2).
  revert H1 H2. unfold Rdot2. cbn. intros H1 H2. injection H1. injection H2. intros. lra.
Qed.
Print Assumptions C94_uneven_scaling_is_not_similar.
