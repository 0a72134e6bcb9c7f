(** Proofs of the exact-arithmetic vector, point and ray properties. *)
From Coq Require Import Bool ZArith Reals Lra Lia Psatz.
From Flocq Require Import Core.Raux.
From Verif Require Import Scalar Types Vector2 Vector3 Point2 Point3 Ray XReal OrdLaws Arith SpecOrder SpecReal XTac ExactBase Comm MatComm.
Local Open Scope R_scope.
Lemma C20_dot_value_2d_pf : forall a b : Vector2 R, v2_dot (XV2 a) (XV2 b) = Fin (Rdot2 a b).
Proof.
  reflexivity.
Qed.
Lemma C20_dot_value_3d_pf : forall a b : Vector3 R, v3_dot (XV3 a) (XV3 b) = Fin (Rdot3 a b).
Proof.
  reflexivity.
Qed.
Lemma C20_dot_bilinear_2d_pf : forall (a b c : Vector2 R) (s : R),
  v2_dot (v2_add (XV2 a) (XV2 b)) (XV2 c) = sadd (v2_dot (XV2 a) (XV2 c)) (v2_dot (XV2 b) (XV2 c)) /\
  v2_dot (XV2 c) (v2_add (XV2 a) (XV2 b)) = sadd (v2_dot (XV2 c) (XV2 a)) (v2_dot (XV2 c) (XV2 b)) /\
  v2_dot (v2_mul (XV2 a) (Fin s)) (XV2 b) = smul (Fin s) (v2_dot (XV2 a) (XV2 b)) /\
  v2_dot (XV2 a) (v2_mul (XV2 b) (Fin s)) = smul (Fin s) (v2_dot (XV2 a) (XV2 b)).
Proof.
  intros a b c s. repeat split; xring.
Qed.
Lemma C20_dot_bilinear_3d_pf : forall (a b c : Vector3 R) (s : R),
  v3_dot (v3_add (XV3 a) (XV3 b)) (XV3 c) = sadd (v3_dot (XV3 a) (XV3 c)) (v3_dot (XV3 b) (XV3 c)) /\
  v3_dot (XV3 c) (v3_add (XV3 a) (XV3 b)) = sadd (v3_dot (XV3 c) (XV3 a)) (v3_dot (XV3 c) (XV3 b)) /\
  v3_dot (v3_mul (XV3 a) (Fin s)) (XV3 b) = smul (Fin s) (v3_dot (XV3 a) (XV3 b)) /\
  v3_dot (XV3 a) (v3_mul (XV3 b) (Fin s)) = smul (Fin s) (v3_dot (XV3 a) (XV3 b)).
Proof.
  intros a b c s. repeat split; xring.
Qed.
Lemma C20_dot_positive_definite_2d_pf : forall a : Vector2 R,
  Le (Fin 0) (v2_dot (XV2 a) (XV2 a)) /\ (v2_dot (XV2 a) (XV2 a) = Fin 0 <-> a = Rzero2).
Proof.
  intros a. rewrite C20_dot_value_2d_pf. split; [apply xle_fin, Rdot2_nn|].
  rewrite <- Rdot2_zero. split; [apply Fin_inj | apply Fin_eq].
Qed.
Lemma C20_dot_positive_definite_3d_pf : forall a : Vector3 R,
  Le (Fin 0) (v3_dot (XV3 a) (XV3 a)) /\ (v3_dot (XV3 a) (XV3 a) = Fin 0 <-> a = Rzero3).
Proof.
  intros a. rewrite C20_dot_value_3d_pf. split; [apply xle_fin, Rdot3_nn|].
  rewrite <- Rdot3_zero. split; [apply Fin_inj | apply Fin_eq].
Qed.
Lemma xv2_length a : v2_length (XV2 a) = Fin (Rnorm2 a).
Proof.
  unfold v2_length. rewrite C20_dot_value_2d_pf. cbn [ssqrt xreal_ops]. rewrite xsqrt_fin by apply Rdot2_nn.
  now rewrite Rnorm2_dot.
Qed.
Lemma xv3_length a : v3_length (XV3 a) = Fin (Rnorm3 a).
Proof.
  unfold v3_length. rewrite C20_dot_value_3d_pf. cbn [ssqrt xreal_ops]. rewrite xsqrt_fin by apply Rdot3_nn.
  now rewrite Rnorm3_dot.
Qed.
Lemma C20_cauchy_schwarz_2d_pf : forall a b : Vector2 R,
  Le (sabs (v2_dot (XV2 a) (XV2 b))) (smul (v2_length (XV2 a)) (v2_length (XV2 b))).
Proof.
  intros a b. rewrite !xv2_length. apply xle_fin. apply cauchy2_abs.
Qed.
Lemma C20_cauchy_schwarz_3d_pf : forall a b : Vector3 R,
  Le (sabs (v3_dot (XV3 a) (XV3 b))) (smul (v3_length (XV3 a)) (v3_length (XV3 b))).
Proof.
  intros a b. rewrite !xv3_length. apply xle_fin. apply cauchy3_abs.
Qed.
Lemma C21_cross_value_pf : forall a b : Vector3 R,
  v3_cross (XV3 a) (XV3 b) = XV3 (mkVector3 (v3y a * v3z b - v3z a * v3y b)
                                            (v3z a * v3x b - v3x a * v3z b)
                                            (v3x a * v3y b - v3y a * v3x b)).
Proof.
  xring.
Qed.
Lemma C21_cross_orthogonal_pf : forall a b : Vector3 R,
  v3_dot (XV3 a) (v3_cross (XV3 a) (XV3 b)) = Fin 0 /\ v3_dot (XV3 b) (v3_cross (XV3 a) (XV3 b)) = Fin 0.
Proof.
  intros a b. split; xring.
Qed.
Lemma C21_cross_anticommutative_bilinear_pf : forall (a b c : Vector3 R) (s : R),
  v3_cross (XV3 a) (XV3 b) = v3_neg (v3_cross (XV3 b) (XV3 a)) /\
  v3_cross (v3_add (XV3 a) (XV3 b)) (XV3 c) = v3_add (v3_cross (XV3 a) (XV3 c)) (v3_cross (XV3 b) (XV3 c)) /\
  v3_cross (XV3 c) (v3_add (XV3 a) (XV3 b)) = v3_add (v3_cross (XV3 c) (XV3 a)) (v3_cross (XV3 c) (XV3 b)) /\
  v3_cross (v3_mul (XV3 a) (Fin s)) (XV3 b) = v3_mul (v3_cross (XV3 a) (XV3 b)) (Fin s) /\
  v3_cross (XV3 a) (v3_mul (XV3 b) (Fin s)) = v3_mul (v3_cross (XV3 a) (XV3 b)) (Fin s).
Proof.
  intros a b c s. repeat split; xring.
Qed.
Lemma C21_cross_lagrange_pf : forall a b : Vector3 R,
  let n := v3_cross (XV3 a) (XV3 b) in
  v3_dot n n = ssub (smul (v3_dot (XV3 a) (XV3 a)) (v3_dot (XV3 b) (XV3 b)))
                    (smul (v3_dot (XV3 a) (XV3 b)) (v3_dot (XV3 a) (XV3 b))).
Proof.
  intros a b. xring.
Qed.
Lemma C21_cross_zero_iff_parallel_pf : forall a b : Vector3 R,
  v3_cross (XV3 a) (XV3 b) = v3_zero <->
  exists s t, (s <> 0 \/ t <> 0) /\ v3_add (v3_mul (XV3 a) (Fin s)) (v3_mul (XV3 b) (Fin t)) = v3_zero.
Proof.
  intros [a1 a2 a3] [b1 b2 b3]. split.
  - intros H. xcbv_in H. injection H as H1 H2 H3.
    destruct (Req_dec a1 0) as [A1|A1]; [destruct (Req_dec a2 0) as [A2|A2]; [destruct (Req_dec a3 0) as [A3|A3]|]|].
    + exists 1, 0. split; [left; lra|]. xcbv. subst. xeqs; ring.
    + exists (- b3), a3. split; [right; auto|]. xcbv. xeqs; lra.
    + exists (- b2), a2. split; [right; auto|]. xcbv. xeqs; lra.
    + exists (- b1), a1. split; [right; auto|]. xcbv. xeqs; lra.
  - intros [s [t [Hst H]]]. xcbv_in H. injection H as H1 H2 H3.
    assert (K : s * (a2 * b3 + - (a3 * b2)) = 0 /\ t * (a2 * b3 + - (a3 * b2)) = 0 /\
                s * (a3 * b1 + - (a1 * b3)) = 0 /\ t * (a3 * b1 + - (a1 * b3)) = 0 /\
                s * (a1 * b2 + - (a2 * b1)) = 0 /\ t * (a1 * b2 + - (a2 * b1)) = 0).
    { repeat split.
      - replace (s * (a2 * b3 + - (a3 * b2))) with ((a2 * s + b2 * t) * b3 - (a3 * s + b3 * t) * b2) by ring. rewrite H2, H3; ring.
      - replace (t * (a2 * b3 + - (a3 * b2))) with ((a3 * s + b3 * t) * a2 - (a2 * s + b2 * t) * a3) by ring. rewrite H2, H3; ring.
      - replace (s * (a3 * b1 + - (a1 * b3))) with ((a3 * s + b3 * t) * b1 - (a1 * s + b1 * t) * b3) by ring. rewrite H1, H3; ring.
      - replace (t * (a3 * b1 + - (a1 * b3))) with ((a1 * s + b1 * t) * a3 - (a3 * s + b3 * t) * a1) by ring. rewrite H1, H3; ring.
      - replace (s * (a1 * b2 + - (a2 * b1))) with ((a1 * s + b1 * t) * b2 - (a2 * s + b2 * t) * b1) by ring. rewrite H1, H2; ring.
      - replace (t * (a1 * b2 + - (a2 * b1))) with ((a2 * s + b2 * t) * a1 - (a1 * s + b1 * t) * a2) by ring. rewrite H1, H2; ring. }
    destruct K as (K1 & K2 & K3 & K4 & K5 & K6).
    assert (Z : forall x, s * x = 0 -> t * x = 0 -> x = 0).
    { intros x X1 X2. destruct Hst as [Hs|Ht]; [apply Rmult_integral in X1|apply Rmult_integral in X2]; tauto. }
    xcbv. rewrite (Z _ K1 K2), (Z _ K3 K4), (Z _ K5 K6). reflexivity.
Qed.
Lemma C21_cross_jacobi_pf : forall a b c : Vector3 R,
  v3_add (v3_add (v3_cross (XV3 a) (v3_cross (XV3 b) (XV3 c))) (v3_cross (XV3 b) (v3_cross (XV3 c) (XV3 a))))
         (v3_cross (XV3 c) (v3_cross (XV3 a) (XV3 b))) = v3_zero.
Proof.
  xring.
Qed.
Lemma C21_cross_right_handed_pf : v3_cross v3_x_axis v3_y_axis = (v3_z_axis : Vector3 xreal) /\
  v3_cross v3_y_axis v3_z_axis = (v3_x_axis : Vector3 xreal) /\
  v3_cross v3_z_axis v3_x_axis = (v3_y_axis : Vector3 xreal).
Proof.
  repeat split; xring.
Qed.
Lemma C22_length_value_2d_pf : forall a : Vector2 R,
  v2_length (XV2 a) = Fin (Rnorm2 a) /\ v2_length (XV2 a) = ssqrt (v2_dot (XV2 a) (XV2 a)) /\
  smul (v2_length (XV2 a)) (v2_length (XV2 a)) = v2_dot (XV2 a) (XV2 a).
Proof.
  intros a. split; [apply xv2_length|]. split; [reflexivity|].
  rewrite xv2_length, C20_dot_value_2d_pf. cbn. now rewrite Rnorm2_sq.
Qed.
Lemma C22_length_value_3d_pf : forall a : Vector3 R,
  v3_length (XV3 a) = Fin (Rnorm3 a) /\ v3_length (XV3 a) = ssqrt (v3_dot (XV3 a) (XV3 a)) /\
  smul (v3_length (XV3 a)) (v3_length (XV3 a)) = v3_dot (XV3 a) (XV3 a).
Proof.
  intros a. split; [apply xv3_length|]. split; [reflexivity|].
  rewrite xv3_length, C20_dot_value_3d_pf. cbn. now rewrite Rnorm3_sq.
Qed.
Lemma C22_length_zero_iff_2d_pf : forall a : Vector2 R, Le (Fin 0) (v2_length (XV2 a)) /\ (v2_length (XV2 a) = Fin 0 <-> a = Rzero2).
Proof.
  intros a. rewrite xv2_length. split; [apply xle_fin, Rnorm2_nn|].
  rewrite <- Rnorm2_zero. split; [apply Fin_inj | apply Fin_eq].
Qed.
Lemma C22_length_zero_iff_3d_pf : forall a : Vector3 R, Le (Fin 0) (v3_length (XV3 a)) /\ (v3_length (XV3 a) = Fin 0 <-> a = Rzero3).
Proof.
  intros a. rewrite xv3_length. split; [apply xle_fin, Rnorm3_nn|].
  rewrite <- Rnorm3_zero. split; [apply Fin_inj | apply Fin_eq].
Qed.
Lemma Rnorm2_scale a s : Rnorm2 (mkVector2 (v2x a * s) (v2y a * s)) = Rabs s * Rnorm2 a.
Proof.
  rewrite !Rnorm2_dot, <- sqrt_Rsqr_abs, <- sqrt_mult_alt by apply Rle_0_sqr. f_equal. unfold Rdot2, Rsqr; simpl; ring.
Qed.
Lemma Rnorm3_scale a s : Rnorm3 (mkVector3 (v3x a * s) (v3y a * s) (v3z a * s)) = Rabs s * Rnorm3 a.
Proof.
  rewrite !Rnorm3_dot, <- sqrt_Rsqr_abs, <- sqrt_mult_alt by apply Rle_0_sqr. f_equal. unfold Rdot3, Rsqr; simpl; ring.
Qed.
Lemma xv2_mul a s : v2_mul (XV2 a) (Fin s) = XV2 (mkVector2 (v2x a * s) (v2y a * s)).
Proof. reflexivity. Qed.
Lemma xv2_add a b : v2_add (XV2 a) (XV2 b) = XV2 (mkVector2 (v2x a + v2x b) (v2y a + v2y b)).
Proof. reflexivity. Qed.
Lemma xp2_sub p q : p2_sub (XP2 p) (XP2 q) = XV2 (mkVector2 (p2x p - p2x q) (p2y p - p2y q)).
Proof. reflexivity. Qed.
Lemma xv2_div a s : s <> 0 -> v2_div (XV2 a) (Fin s) = XV2 (mkVector2 (v2x a / s) (v2y a / s)).
Proof. intros H. xdestr. xcbv. rewrite !xdiv_fin by assumption. reflexivity. Qed.
Lemma Rnorm2_div a s : 0 < s -> Rnorm2 (mkVector2 (v2x a / s) (v2y a / s)) = Rnorm2 a / s.
Proof. intros H. unfold Rdiv. rewrite Rnorm2_scale, Rabs_pos_eq; [ring|]. left. now apply Rinv_0_lt_compat. Qed.
Lemma xv2_normalize a : a <> Rzero2 -> v2_normalize (XV2 a) = XV2 (mkVector2 (v2x a / Rnorm2 a) (v2y a / Rnorm2 a)).
Proof.
  intros H. unfold v2_normalize. rewrite xv2_length. apply xv2_div. pose proof (Rnorm2_pos a H). lra.
Qed.
Lemma Rnorm2_unit a : a <> Rzero2 -> Rnorm2 (mkVector2 (v2x a / Rnorm2 a) (v2y a / Rnorm2 a)) = 1.
Proof. intros H. pose proof (Rnorm2_pos a H). rewrite Rnorm2_div by assumption. field. lra. Qed.
Lemma xv3_mul a s : v3_mul (XV3 a) (Fin s) = XV3 (mkVector3 (v3x a * s) (v3y a * s) (v3z a * s)).
Proof. reflexivity. Qed.
Lemma xv3_add a b : v3_add (XV3 a) (XV3 b) = XV3 (mkVector3 (v3x a + v3x b) (v3y a + v3y b) (v3z a + v3z b)).
Proof. reflexivity. Qed.
Lemma xp3_sub p q : p3_sub (XP3 p) (XP3 q) = XV3 (mkVector3 (p3x p - p3x q) (p3y p - p3y q) (p3z p - p3z q)).
Proof. reflexivity. Qed.
Lemma xv3_div a s : s <> 0 -> v3_div (XV3 a) (Fin s) = XV3 (mkVector3 (v3x a / s) (v3y a / s) (v3z a / s)).
Proof. intros H. xdestr. xcbv. rewrite !xdiv_fin by assumption. reflexivity. Qed.
Lemma Rnorm3_div a s : 0 < s -> Rnorm3 (mkVector3 (v3x a / s) (v3y a / s) (v3z a / s)) = Rnorm3 a / s.
Proof. intros H. unfold Rdiv. rewrite Rnorm3_scale, Rabs_pos_eq; [ring|]. left. now apply Rinv_0_lt_compat. Qed.
Lemma xv3_normalize a : a <> Rzero3 -> v3_normalize (XV3 a) = XV3 (mkVector3 (v3x a / Rnorm3 a) (v3y a / Rnorm3 a) (v3z a / Rnorm3 a)).
Proof.
  intros H. unfold v3_normalize. rewrite xv3_length. apply xv3_div. pose proof (Rnorm3_pos a H). lra.
Qed.
Lemma Rnorm3_unit a : a <> Rzero3 -> Rnorm3 (mkVector3 (v3x a / Rnorm3 a) (v3y a / Rnorm3 a) (v3z a / Rnorm3 a)) = 1.
Proof. intros H. pose proof (Rnorm3_pos a H). rewrite Rnorm3_div by assumption. field. lra. Qed.
Lemma C22_length_homogeneous_2d_pf : forall (a : Vector2 R) (s : R),
  v2_length (v2_mul (XV2 a) (Fin s)) = smul (sabs (Fin s)) (v2_length (XV2 a)) /\
  v2_length (v2_neg (XV2 a)) = v2_length (XV2 a).
Proof.
  intros a s. split.
  - rewrite xv2_mul, !xv2_length. cbn. now rewrite Rnorm2_scale.
  - replace (v2_neg (XV2 a)) with (v2_mul (XV2 a) (Fin (-1))) by xring.
    rewrite xv2_mul, !xv2_length. rewrite Rnorm2_scale, Rabs_left by lra. apply Fin_eq. ring.
Qed.
Lemma C22_length_homogeneous_3d_pf : forall (a : Vector3 R) (s : R),
  v3_length (v3_mul (XV3 a) (Fin s)) = smul (sabs (Fin s)) (v3_length (XV3 a)) /\
  v3_length (v3_neg (XV3 a)) = v3_length (XV3 a).
Proof.
  intros a s. split.
  - rewrite xv3_mul, !xv3_length. cbn. now rewrite Rnorm3_scale.
  - replace (v3_neg (XV3 a)) with (v3_mul (XV3 a) (Fin (-1))) by xring.
    rewrite xv3_mul, !xv3_length. rewrite Rnorm3_scale, Rabs_left by lra. apply Fin_eq. ring.
Qed.
Lemma C22_length_triangle_2d_pf : forall a b : Vector2 R,
  Le (v2_length (v2_add (XV2 a) (XV2 b))) (sadd (v2_length (XV2 a)) (v2_length (XV2 b))).
Proof.
  intros a b. rewrite xv2_add, !xv2_length. apply xle_fin. apply triangle2.
Qed.
Lemma C22_length_triangle_3d_pf : forall a b : Vector3 R,
  Le (v3_length (v3_add (XV3 a) (XV3 b))) (sadd (v3_length (XV3 a)) (v3_length (XV3 b))).
Proof.
  intros a b. rewrite xv3_add, !xv3_length. apply xle_fin. apply triangle3.
Qed.
Lemma Rnorm2_nonzero a : Rnorm2 a <> 0 <-> a <> Rzero2.
Proof. now rewrite Rnorm2_zero. Qed.
Lemma Rnorm3_nonzero a : Rnorm3 a <> 0 <-> a <> Rzero3.
Proof. now rewrite Rnorm3_zero. Qed.
Lemma C23_normalize_unit_2d_pf : forall a : Vector2 R, a <> Rzero2 ->
  v2_length (v2_normalize (XV2 a)) = Fin 1 /\
  v2_mul (v2_normalize (XV2 a)) (v2_length (XV2 a)) = XV2 a /\
  Lt (Fin 0) (v2_length (XV2 a)).
Proof.
  intros a H. pose proof (Rnorm2_pos a H) as Hp. rewrite xv2_normalize by assumption. repeat split.
  - now rewrite xv2_length, Rnorm2_unit.
  - rewrite xv2_length, xv2_mul. unfold XV2; cbn. f_equal; apply Fin_eq; field; lra.
  - rewrite xv2_length. now apply xlt_fin.
Qed.
Lemma C23_normalize_unit_3d_pf : forall a : Vector3 R, a <> Rzero3 ->
  v3_length (v3_normalize (XV3 a)) = Fin 1 /\
  v3_mul (v3_normalize (XV3 a)) (v3_length (XV3 a)) = XV3 a /\
  Lt (Fin 0) (v3_length (XV3 a)).
Proof.
  intros a H. pose proof (Rnorm3_pos a H) as Hp. rewrite xv3_normalize by assumption. repeat split.
  - now rewrite xv3_length, Rnorm3_unit.
  - rewrite xv3_length, xv3_mul. unfold XV3; cbn. f_equal; apply Fin_eq; field; lra.
  - rewrite xv3_length. now apply xlt_fin.
Qed.
Lemma C23_normalize_idempotent_2d_pf : forall a : Vector2 R, a <> Rzero2 ->
  v2_normalize (v2_normalize (XV2 a)) = v2_normalize (XV2 a).
Proof.
  intros a H. rewrite xv2_normalize by assumption.
  pose proof (Rnorm2_unit a H) as U. rewrite xv2_normalize.
  - rewrite U. unfold XV2; cbn. f_equal; apply Fin_eq; field; apply Rnorm2_nonzero; auto.
  - apply Rnorm2_nonzero. rewrite U. lra.
Qed.
Lemma C23_normalize_idempotent_3d_pf : forall a : Vector3 R, a <> Rzero3 ->
  v3_normalize (v3_normalize (XV3 a)) = v3_normalize (XV3 a).
Proof.
  intros a H. rewrite xv3_normalize by assumption.
  pose proof (Rnorm3_unit a H) as U. rewrite xv3_normalize.
  - rewrite U. unfold XV3; cbn. f_equal; apply Fin_eq; field; apply Rnorm3_nonzero; auto.
  - apply Rnorm3_nonzero. rewrite U. lra.
Qed.
Lemma C23_normalize_scaling_2d_pf : forall (a : Vector2 R) (s : R), a <> Rzero2 -> 0 < s ->
  v2_normalize (v2_mul (XV2 a) (Fin s)) = v2_normalize (XV2 a).
Proof.
  intros a s H Hs. pose proof (Rnorm2_pos a H) as Hp. rewrite xv2_mul.
  assert (E : Rabs s = s) by (apply Rabs_pos_eq; lra).
  rewrite !xv2_normalize; auto.
  - rewrite Rnorm2_scale, E. unfold XV2; cbn. f_equal; apply Fin_eq; field; lra.
  - apply Rnorm2_nonzero. rewrite Rnorm2_scale, E. apply Rmult_integral_contrapositive. lra.
Qed.
Lemma C23_normalize_scaling_3d_pf : forall (a : Vector3 R) (s : R), a <> Rzero3 -> 0 < s ->
  v3_normalize (v3_mul (XV3 a) (Fin s)) = v3_normalize (XV3 a).
Proof.
  intros a s H Hs. pose proof (Rnorm3_pos a H) as Hp. rewrite xv3_mul.
  assert (E : Rabs s = s) by (apply Rabs_pos_eq; lra).
  rewrite !xv3_normalize; auto.
  - rewrite Rnorm3_scale, E. unfold XV3; cbn. f_equal; apply Fin_eq; field; lra.
  - apply Rnorm3_nonzero. rewrite Rnorm3_scale, E. apply Rmult_integral_contrapositive. lra.
Qed.
Lemma C25_relative_length_exact_2d_pf : forall a b : Vector2 R,
  v2_is_shorter_than (XV2 a) (XV2 b) = slt (v2_length (XV2 a)) (v2_length (XV2 b)) /\
  v2_is_longer_than (XV2 a) (XV2 b) = slt (v2_length (XV2 b)) (v2_length (XV2 a)).
Proof.
  intros a b. unfold v2_is_shorter_than, v2_is_longer_than. rewrite !xv2_length, !C20_dot_value_2d_pf. cbn.
  rewrite !Rnorm2_dot. pose proof (Rdot2_nn a) as Ha. pose proof (Rdot2_nn b) as Hb.
  pose proof (sqrt_lt_iff _ _ Ha Hb). pose proof (sqrt_lt_iff _ _ Hb Ha).
  split; do 2 case Rlt_bool_spec; intros; try reflexivity; lra.
Qed.
Lemma C25_relative_length_exact_3d_pf : forall a b : Vector3 R,
  v3_is_shorter_than (XV3 a) (XV3 b) = slt (v3_length (XV3 a)) (v3_length (XV3 b)) /\
  v3_is_longer_than (XV3 a) (XV3 b) = slt (v3_length (XV3 b)) (v3_length (XV3 a)).
Proof.
  intros a b. unfold v3_is_shorter_than, v3_is_longer_than. rewrite !xv3_length, !C20_dot_value_3d_pf. cbn.
  rewrite !Rnorm3_dot. pose proof (Rdot3_nn a) as Ha. pose proof (Rdot3_nn b) as Hb.
  pose proof (sqrt_lt_iff _ _ Ha Hb). pose proof (sqrt_lt_iff _ _ Hb Ha).
  split; do 2 case Rlt_bool_spec; intros; try reflexivity; lra.
Qed.
Lemma C27_distance_value_2d_pf : forall p q : Point2 R, p2_distance (XP2 p) (XP2 q) = Fin (Rdist2 p q).
Proof.
  intros p q. unfold p2_distance. rewrite xp2_sub, xv2_length. apply Fin_eq.
  unfold Rnorm2, Rdist2; cbn [v2x v2y v3x v3y v3z]. f_equal. ring.
Qed.
Lemma C27_distance_value_3d_pf : forall p q : Point3 R, p3_distance (XP3 p) (XP3 q) = Fin (Rdist3 p q).
Proof.
  intros p q. unfold p3_distance. rewrite xp3_sub, xv3_length. apply Fin_eq.
  unfold Rnorm3, Rdist3; cbn [v2x v2y v3x v3y v3z]. f_equal. ring.
Qed.
Lemma C27_distance_metric_2d_pf : forall p q r : Point2 R,
  Le (Fin 0) (p2_distance (XP2 p) (XP2 q)) /\
  (p2_distance (XP2 p) (XP2 q) = Fin 0 <-> p = q) /\
  p2_distance (XP2 p) (XP2 q) = p2_distance (XP2 q) (XP2 p) /\
  Le (p2_distance (XP2 p) (XP2 r)) (sadd (p2_distance (XP2 p) (XP2 q)) (p2_distance (XP2 q) (XP2 r))).
Proof.
  intros p q r. split; [|split; [|split]].
  - unfold p2_distance. rewrite xp2_sub. apply C22_length_zero_iff_2d_pf.
  - unfold p2_distance. rewrite xp2_sub. rewrite (proj2 (C22_length_zero_iff_2d_pf _)).
    destruct p, q; unfold Rzero2; cbn. split.
    + intros H. injection H; intros. f_equal; lra.
    + intros H. injection H; intros. subst. f_equal; lra.
  - rewrite !C27_distance_value_2d_pf. unfold Rdist2. apply Fin_eq. f_equal. ring.
  - unfold p2_distance.
    replace (p2_sub (XP2 r) (XP2 p)) with (v2_add (p2_sub (XP2 q) (XP2 p)) (p2_sub (XP2 r) (XP2 q))) by xring.
    rewrite !xp2_sub. apply C22_length_triangle_2d_pf.
Qed.
Lemma C27_distance_metric_3d_pf : forall p q r : Point3 R,
  Le (Fin 0) (p3_distance (XP3 p) (XP3 q)) /\
  (p3_distance (XP3 p) (XP3 q) = Fin 0 <-> p = q) /\
  p3_distance (XP3 p) (XP3 q) = p3_distance (XP3 q) (XP3 p) /\
  Le (p3_distance (XP3 p) (XP3 r)) (sadd (p3_distance (XP3 p) (XP3 q)) (p3_distance (XP3 q) (XP3 r))).
Proof.
  intros p q r. split; [|split; [|split]].
  - unfold p3_distance. rewrite xp3_sub. apply C22_length_zero_iff_3d_pf.
  - unfold p3_distance. rewrite xp3_sub. rewrite (proj2 (C22_length_zero_iff_3d_pf _)).
    destruct p, q; unfold Rzero3; cbn. split.
    + intros H. injection H; intros. f_equal; lra.
    + intros H. injection H; intros. subst. f_equal; lra.
  - rewrite !C27_distance_value_3d_pf. unfold Rdist3. apply Fin_eq. f_equal. ring.
  - unfold p3_distance.
    replace (p3_sub (XP3 r) (XP3 p)) with (v3_add (p3_sub (XP3 q) (XP3 p)) (p3_sub (XP3 r) (XP3 q))) by xring.
    rewrite !xp3_sub. apply C22_length_triangle_3d_pf.
Qed.
Lemma C28_relative_distance_exact_2d_pf : forall p a b : Point2 R,
  p2_is_closer_to (XP2 p) (XP2 a) (XP2 b) = slt (p2_distance (XP2 p) (XP2 a)) (p2_distance (XP2 p) (XP2 b)) /\
  p2_is_farther_from (XP2 p) (XP2 a) (XP2 b) = slt (p2_distance (XP2 p) (XP2 b)) (p2_distance (XP2 p) (XP2 a)).
Proof.
  intros p a b. unfold p2_distance. rewrite !xp2_sub.
  split; [rewrite <- (proj1 (C25_relative_length_exact_2d_pf _ _)) | rewrite <- (proj2 (C25_relative_length_exact_2d_pf _ _))]; reflexivity.
Qed.
Lemma C28_relative_distance_exact_3d_pf : forall p a b : Point3 R,
  p3_is_closer_to (XP3 p) (XP3 a) (XP3 b) = slt (p3_distance (XP3 p) (XP3 a)) (p3_distance (XP3 p) (XP3 b)) /\
  p3_is_farther_from (XP3 p) (XP3 a) (XP3 b) = slt (p3_distance (XP3 p) (XP3 b)) (p3_distance (XP3 p) (XP3 a)).
Proof.
  intros p a b. unfold p3_distance. rewrite !xp3_sub.
  split; [rewrite <- (proj1 (C25_relative_length_exact_3d_pf _ _)) | rewrite <- (proj2 (C25_relative_length_exact_3d_pf _ _))]; reflexivity.
Qed.
Lemma C29_points_and_vectors_2d_pf : forall (p q : Point2 R) (u v : Vector2 R),
  p2_sub_v (p2_add (XP2 p) (XV2 v)) (XV2 v) = XP2 p /\
  p2_add (p2_sub_v (XP2 p) (XV2 v)) (XV2 v) = XP2 p /\
  p2_add (XP2 p) (p2_sub (XP2 q) (XP2 p)) = XP2 q /\
  p2_add (p2_add (XP2 p) (XV2 u)) (XV2 v) = p2_add (XP2 p) (v2_add (XV2 u) (XV2 v)) /\
  p2_sub (p2_add (XP2 p) (XV2 v)) (XP2 p) = XV2 v /\
  p2_sub (XP2 p) (XP2 p) = v2_zero /\
  p2_add (XP2 p) v2_zero = XP2 p /\
  p2_sub_v (XP2 p) (XV2 v) = p2_add (XP2 p) (v2_neg (XV2 v)).
Proof.
  intros p q u v. repeat split; xring.
Qed.
Lemma C29_points_and_vectors_3d_pf : forall (p q : Point3 R) (u v : Vector3 R),
  p3_sub_v (p3_add (XP3 p) (XV3 v)) (XV3 v) = XP3 p /\
  p3_add (p3_sub_v (XP3 p) (XV3 v)) (XV3 v) = XP3 p /\
  p3_add (XP3 p) (p3_sub (XP3 q) (XP3 p)) = XP3 q /\
  p3_add (p3_add (XP3 p) (XV3 u)) (XV3 v) = p3_add (XP3 p) (v3_add (XV3 u) (XV3 v)) /\
  p3_sub (p3_add (XP3 p) (XV3 v)) (XP3 p) = XV3 v /\
  p3_sub (XP3 p) (XP3 p) = v3_zero /\
  p3_add (XP3 p) v3_zero = XP3 p /\
  p3_sub_v (XP3 p) (XV3 v) = p3_add (XP3 p) (v3_neg (XV3 v)).
Proof.
  intros p q u v. repeat split; xring.
Qed.
Lemma C29_vector_space_2d_pf : forall (u v w : Vector2 R) (s t : R),
  v2_add (v2_add (XV2 u) (XV2 v)) (XV2 w) = v2_add (XV2 u) (v2_add (XV2 v) (XV2 w)) /\
  v2_add (XV2 u) (XV2 v) = v2_add (XV2 v) (XV2 u) /\
  v2_add (XV2 u) v2_zero = XV2 u /\
  v2_add (XV2 u) (v2_neg (XV2 u)) = v2_zero /\
  v2_sub (XV2 u) (XV2 v) = v2_add (XV2 u) (v2_neg (XV2 v)) /\
  v2_mul (v2_add (XV2 u) (XV2 v)) (Fin s) = v2_add (v2_mul (XV2 u) (Fin s)) (v2_mul (XV2 v) (Fin s)) /\
  v2_mul (XV2 u) (sadd (Fin s) (Fin t)) = v2_add (v2_mul (XV2 u) (Fin s)) (v2_mul (XV2 u) (Fin t)) /\
  v2_mul (v2_mul (XV2 u) (Fin s)) (Fin t) = v2_mul (XV2 u) (smul (Fin s) (Fin t)) /\
  v2_mul (XV2 u) (Fin 1) = XV2 u /\
  v2_lmul (Fin s) (XV2 u) = v2_mul (XV2 u) (Fin s).
Proof.
  intros u v w s t. repeat split; xring.
Qed.
Lemma C29_vector_space_3d_pf : forall (u v w : Vector3 R) (s t : R),
  v3_add (v3_add (XV3 u) (XV3 v)) (XV3 w) = v3_add (XV3 u) (v3_add (XV3 v) (XV3 w)) /\
  v3_add (XV3 u) (XV3 v) = v3_add (XV3 v) (XV3 u) /\
  v3_add (XV3 u) v3_zero = XV3 u /\
  v3_add (XV3 u) (v3_neg (XV3 u)) = v3_zero /\
  v3_sub (XV3 u) (XV3 v) = v3_add (XV3 u) (v3_neg (XV3 v)) /\
  v3_mul (v3_add (XV3 u) (XV3 v)) (Fin s) = v3_add (v3_mul (XV3 u) (Fin s)) (v3_mul (XV3 v) (Fin s)) /\
  v3_mul (XV3 u) (sadd (Fin s) (Fin t)) = v3_add (v3_mul (XV3 u) (Fin s)) (v3_mul (XV3 u) (Fin t)) /\
  v3_mul (v3_mul (XV3 u) (Fin s)) (Fin t) = v3_mul (XV3 u) (smul (Fin s) (Fin t)) /\
  v3_mul (XV3 u) (Fin 1) = XV3 u /\
  v3_lmul (Fin s) (XV3 u) = v3_mul (XV3 u) (Fin s).
Proof.
  intros u v w s t. repeat split; xring.
Qed.
Lemma C29_scalar_division_2d_pf : forall (u : Vector2 R) (p : Point2 R) (s : R), s <> 0 ->
  v2_div (v2_mul (XV2 u) (Fin s)) (Fin s) = XV2 u /\ v2_mul (v2_div (XV2 u) (Fin s)) (Fin s) = XV2 u /\
  v2_div (XV2 u) (Fin s) = v2_mul (XV2 u) (srecip (Fin s)) /\
  p2_div (p2_mul (XP2 p) (Fin s)) (Fin s) = XP2 p /\ p2_mul (p2_div (XP2 p) (Fin s)) (Fin s) = XP2 p /\
  p2_div (XP2 p) (Fin s) = p2_mul (XP2 p) (srecip (Fin s)).
Proof.
  intros u p s H. xdestr. xcbv. rewrite !xdiv_fin by assumption. xcbv. repeat split; xeqs; field; assumption.
Qed.
Lemma C29_scalar_division_3d_pf : forall (u : Vector3 R) (p : Point3 R) (s : R), s <> 0 ->
  v3_div (v3_mul (XV3 u) (Fin s)) (Fin s) = XV3 u /\ v3_mul (v3_div (XV3 u) (Fin s)) (Fin s) = XV3 u /\
  v3_div (XV3 u) (Fin s) = v3_mul (XV3 u) (srecip (Fin s)) /\
  p3_div (p3_mul (XP3 p) (Fin s)) (Fin s) = XP3 p /\ p3_mul (p3_div (XP3 p) (Fin s)) (Fin s) = XP3 p /\
  p3_div (XP3 p) (Fin s) = p3_mul (XP3 p) (srecip (Fin s)).
Proof.
  intros u p s H. xdestr. xcbv. rewrite !xdiv_fin by assumption. xcbv. repeat split; xeqs; field; assumption.
Qed.
Lemma C29_conversions_2d_pf : forall (p q : Point2 R) (u v : Vector2 R) (s : R),
  p2_from (v2_from (XP2 p)) = XP2 p /\ v2_from (p2_from (XV2 v)) = XV2 v /\
  v2_from (XP2 p) = p2_sub (XP2 p) p2_origin /\ p2_from (XV2 v) = p2_add p2_origin (XV2 v) /\
  v2_from (p2_add (XP2 p) (XV2 v)) = v2_add (v2_from (XP2 p)) (XV2 v) /\
  v2_from (p2_mul (XP2 p) (Fin s)) = v2_mul (v2_from (XP2 p)) (Fin s) /\
  v2_from (p2_neg (XP2 p)) = v2_neg (v2_from (XP2 p)) /\
  p2_sub (XP2 p) (XP2 q) = v2_sub (v2_from (XP2 p)) (v2_from (XP2 q)) /\
  p2_from (v2_add (XV2 u) (XV2 v)) = p2_add (p2_from (XV2 u)) (XV2 v).
Proof.
  intros p q u v s. repeat split; xring.
Qed.
Lemma C29_conversions_3d_pf : forall (p q : Point3 R) (u v : Vector3 R) (s : R),
  p3_from (v3_from (XP3 p)) = XP3 p /\ v3_from (p3_from (XV3 v)) = XV3 v /\
  v3_from (XP3 p) = p3_sub (XP3 p) p3_origin /\ p3_from (XV3 v) = p3_add p3_origin (XV3 v) /\
  v3_from (p3_add (XP3 p) (XV3 v)) = v3_add (v3_from (XP3 p)) (XV3 v) /\
  v3_from (p3_mul (XP3 p) (Fin s)) = v3_mul (v3_from (XP3 p)) (Fin s) /\
  v3_from (p3_neg (XP3 p)) = v3_neg (v3_from (XP3 p)) /\
  p3_sub (XP3 p) (XP3 q) = v3_sub (v3_from (XP3 p)) (v3_from (XP3 q)) /\
  p3_from (v3_add (XV3 u) (XV3 v)) = p3_add (p3_from (XV3 u)) (XV3 v).
Proof.
  intros p q u v s. repeat split; xring.
Qed.
Lemma C52_ray_at_exact_2d_pf : forall (r : Ray2 R) (s t : R),
  r2_at (XR2 r) (Fin 0) = XP2 (r2_origin r) /\
  p2_sub (r2_at (XR2 r) (Fin s)) (r2_at (XR2 r) (Fin t)) = v2_mul (XV2 (r2_direction r)) (Fin (s - t)) /\
  r2_at (XR2 r) (Fin s) = p2_add (XP2 (r2_origin r)) (v2_mul (XV2 (r2_direction r)) (Fin s)).
Proof.
  intros r s t. repeat split; xring.
Qed.
Lemma C52_ray_at_exact_3d_pf : forall (r : Ray3 R) (s t : R),
  r3_at (XR3 r) (Fin 0) = XP3 (r3_origin r) /\
  p3_sub (r3_at (XR3 r) (Fin s)) (r3_at (XR3 r) (Fin t)) = v3_mul (XV3 (r3_direction r)) (Fin (s - t)) /\
  r3_at (XR3 r) (Fin s) = p3_add (XP3 (r3_origin r)) (v3_mul (XV3 (r3_direction r)) (Fin s)).
Proof.
  intros r s t. repeat split; xring.
Qed.
