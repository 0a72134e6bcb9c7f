(** Proofs: similarities (exact arithmetic, C94). *)
From Coq Require Import Bool NArith ZArith Reals List Lra Lia Psatz.
From Flocq Require Import Core.Raux.
From Verif Require Import Scalar Types Vector2 Vector3 Point2 Point3 Ray Transform2 Transform3
  XReal SpecReal SpecStruct SpecTrans SpecSim XTac ExactBase ExactVec Adj4 ExactMat ExactRot ExactTrans ExactTransRay.
Import ListNotations.
Local Open Scope R_scope.
Lemma Similar2_nz t k : Similar2 t k -> k <> 0.
Proof.
  induction 1; try lra; try assumption.
  
  - now apply Rmult_integral_contrapositive_currified.
  - now apply Rinv_neq_0_compat.
Qed.
Lemma Similar3_nz t k : Similar3 t k -> k <> 0.
Proof.
  induction 1; try lra; try assumption.
  - pose proof (Rmult_integral_contrapositive_currified s s H H). apply Rmult_integral_contrapositive_currified; [|now apply Rinv_neq_0_compat]. repeat apply Rmult_integral_contrapositive_currified; lra.
  - now apply Rmult_integral_contrapositive_currified.
  - now apply Rinv_neq_0_compat.
Qed.
Lemma Similar2_built t k : Similar2 t k -> Built2 affine2 t.
Proof.
  induction 1; try (econstructor; eassumption). apply B2_scale; lra.
Qed.
Lemma Rlin2_mul (a b : Matrix3x3 R) v : affine2 b -> Rlin2 (m3_mul (O := R_ops) a b) v = Rlin2 a (Rlin2 b v).
Proof.
  intros H. destruct a, b, v. unfold affine2 in H. cbn in H. decompose [and] H. subst. unfold Rlin2. cbn. f_equal; ring.
Qed.
Lemma Rlin2_id v : Rlin2 (m3_identity (O := R_ops)) v = v.
Proof. destruct v. unfold Rlin2. cbn. f_equal; ring. Qed.
Lemma mutual2_lin (a b : Matrix3x3 R) v : affine2 b -> m3_mul (XM3 a) (XM3 b) = m3_identity -> Rlin2 a (Rlin2 b v) = v.
Proof.
  intros H E. rewrite <- Rlin2_mul by exact H. rewrite <- (Rlin2_id v) at 2. f_equal.
  rewrite xm3_mul, xm3_identity in E. now apply XM3_inj in E.
Qed.
Lemma XT2_eq_fwd t w : t = XT2 w -> forall v, t2_transform_vector t (XV2 v) = XV2 (Rlin2 (t2_forward w) v).
Proof. intros -> v. exact (xvec2 (t2_forward w) v). Qed.
Lemma dot_of2 m (k : R) (t : Transform2 xreal) : t2_forward t = XM3 m -> (forall u v, v2_dot (t2_transform_vector t (XV2 u)) (t2_transform_vector t (XV2 v)) = v2_dot (XV2 u) (XV2 v)) ->
  forall u v, Rdot2 (Rlin2 m u) (Rlin2 m v) = 1 * 1 * Rdot2 u v.
Proof.
  intros E H u v. specialize (H u v). unfold t2_transform_vector in H. rewrite E, !xvec2, !C20_dot_value_2d_pf in H. apply Fin_inj in H. lra.
Qed.
Lemma Similar3_built t k : Similar3 t k -> Built3 affine3 t.
Proof.
  induction 1; try (econstructor; eassumption). apply B3_scale; lra.
Qed.
Lemma Rlin3_mul (a b : Matrix4x4 R) v : affine3 b -> Rlin3 (m4_mul (O := R_ops) a b) v = Rlin3 a (Rlin3 b v).
Proof.
  intros H. destruct a, b, v. unfold affine3 in H. cbn in H. decompose [and] H. subst. unfold Rlin3. cbn. f_equal; ring.
Qed.
Lemma Rlin3_id v : Rlin3 (m4_identity (O := R_ops)) v = v.
Proof. destruct v. unfold Rlin3. cbn. f_equal; ring. Qed.
Lemma mutual3_lin (a b : Matrix4x4 R) v : affine3 b -> m4_mul (XM4 a) (XM4 b) = m4_identity -> Rlin3 a (Rlin3 b v) = v.
Proof.
  intros H E. rewrite <- Rlin3_mul by exact H. rewrite <- (Rlin3_id v) at 2. f_equal.
  rewrite xm4_mul, xm4_identity in E. now apply XM4_inj in E.
Qed.
Lemma XT3_eq_fwd t w : t = XT3 w -> forall v, t3_transform_vector t (XV3 v) = XV3 (Rlin3 (t3_forward w) v).
Proof. intros -> v. exact (xvec3 (t3_forward w) v). Qed.
Lemma dot_of3 m (k : R) (t : Transform3 xreal) : t3_forward t = XM4 m -> (forall u v, v3_dot (t3_transform_vector t (XV3 u)) (t3_transform_vector t (XV3 v)) = v3_dot (XV3 u) (XV3 v)) ->
  forall u v, Rdot3 (Rlin3 m u) (Rlin3 m v) = 1 * 1 * Rdot3 u v.
Proof.
  intros E H u v. specialize (H u v). unfold t3_transform_vector in H. rewrite E, !xvec3, !C20_dot_value_3d_pf in H. apply Fin_inj in H. lra.
Qed.
Lemma cross_of3 m (t : Transform3 xreal) : t3_forward t = XM4 m ->
  (forall u v, v3_cross (t3_transform_vector t (XV3 u)) (t3_transform_vector t (XV3 v)) = t3_transform_vector t (v3_cross (XV3 u) (XV3 v))) ->
  forall u v, Rcross (Rlin3 m u) (Rlin3 m v) = mkVector3 (v3x (Rlin3 m (Rcross u v)) * 1) (v3y (Rlin3 m (Rcross u v)) * 1) (v3z (Rlin3 m (Rcross u v)) * 1).
Proof.
  intros E H u v. specialize (H u v). unfold t3_transform_vector in H. rewrite xv3_cross, E, !xvec3, xv3_cross in H. apply XV3_inj in H. rewrite H.
  rewrite !Rmult_1_r. now destruct (Rlin3 m (Rcross u v)).
Qed.
Definition simR3 (m : Matrix4x4 R) (k : R) : Prop :=
  (forall u v, Rdot3 (Rlin3 m u) (Rlin3 m v) = k * k * Rdot3 u v) /\
  (forall u v, Rcross (Rlin3 m u) (Rlin3 m v) = mkVector3 (v3x (Rlin3 m (Rcross u v)) * k) (v3y (Rlin3 m (Rcross u v)) * k) (v3z (Rlin3 m (Rcross u v)) * k)).
Definition simR2 (m : Matrix3x3 R) (k : R) : Prop := forall u v, Rdot2 (Rlin2 m u) (Rlin2 m v) = k * k * Rdot2 u v.
Lemma Rlin3_scale m v s : Rlin3 m (mkVector3 (v3x v * s) (v3y v * s) (v3z v * s)) = mkVector3 (v3x (Rlin3 m v) * s) (v3y (Rlin3 m v) * s) (v3z (Rlin3 m v) * s).
Proof. unfold Rlin3. cbn. f_equal; ring. Qed.
Ltac fin_m t := let w := fresh "w" in let E := fresh "E" in intros w E; pose proof (f_equal t3_forward E) as E'; cbn [t3_forward XT3] in E'.
Lemma sim_rigid3 t w : t = XT3 w -> (forall u v, v3_dot (t3_transform_vector t (XV3 u)) (t3_transform_vector t (XV3 v)) = v3_dot (XV3 u) (XV3 v)) ->
  (forall u v, v3_cross (t3_transform_vector t (XV3 u)) (t3_transform_vector t (XV3 v)) = t3_transform_vector t (v3_cross (XV3 u) (XV3 v))) -> simR3 (t3_forward w) 1.
Proof.
  intros E H1 H2. pose proof (f_equal t3_forward E) as E'. cbn [t3_forward XT3] in E'. split; [exact (dot_of3 _ 1 t E' H1) | exact (cross_of3 _ t E' H2)].
Qed.
Lemma sim_sound3 t k : Similar3 t k -> forall w, t = XT3 w -> simR3 (t3_forward w) k.
Proof.
  intros S. pose proof S as S0. induction S as [|v|a|a|a|x a Hx|prof from target up t Hi Ht|s Hs|s sx sy sz Hs Hx Hy Hz|t u k l St IHt Su IHu|t k St IHt]; intros w E.
  - apply (sim_rigid3 _ _ E); intros u v; xring.
  - apply (sim_rigid3 _ _ E); intros u v'; xring.
  - apply (sim_rigid3 _ _ E); intros u v; apply (C41_rotation_isometry_x_pf a u v (mkPoint3 0 0 0) (mkPoint3 0 0 0)).
  - apply (sim_rigid3 _ _ E); intros u v; apply (C41_rotation_isometry_y_pf a u v (mkPoint3 0 0 0) (mkPoint3 0 0 0)).
  - apply (sim_rigid3 _ _ E); intros u v; apply (C41_rotation_isometry_z_pf a u v (mkPoint3 0 0 0) (mkPoint3 0 0 0)).
  - apply (sim_rigid3 _ _ E); intros u v; apply (C42_axis_rotation_isometry_pf x a u v (mkPoint3 0 0 0) (mkPoint3 0 0 0) Hx).
  - apply (sim_rigid3 _ _ E); intros u v; apply (C48_look_at_rigid_pf prof from target up t Hi Ht (mkPoint3 0 0 0) (mkPoint3 0 0 0) u v).
  - pose proof (f_equal t3_forward E) as E'. change (XM4 (mkM4 s 0 0 0 0 s 0 0 0 0 s 0 0 0 0 1) = XM4 (t3_forward w)) in E'. apply XM4_inj in E'. rewrite <- E'.
    split; intros [? ? ?] [? ? ?]; unfold Rlin3, Rdot3, Rcross; cbn; [ring | f_equal; ring].
  - pose proof (f_equal t3_forward E) as E'. change (XM4 (mkM4 sx 0 0 0 0 sy 0 0 0 0 sz 0 0 0 0 1) = XM4 (t3_forward w)) in E'. apply XM4_inj in E'. rewrite <- E'.
    split; intros [? ? ?] [? ? ?]; unfold Rlin3, Rdot3, Rcross; cbn; destruct Hx as [-> | ->], Hy as [-> | ->], Hz as [-> | ->]; try (field; assumption); f_equal; field; assumption.
  - destruct (built3_finite _ _ (Similar3_built _ _ St)) as (t' & -> & Mt), (built3_finite _ _ (Similar3_built _ _ Su)) as (u' & -> & Mu).
    rewrite xt3_and_then in E. apply XT3_inj in E. subst w. cbn [Rcomp3 t3_forward].
    destruct (built3_affine t' (Similar3_built _ _ St)) as [At _].
    destruct (IHt St _ eq_refl) as [D1 C1], (IHu Su _ eq_refl) as [D2 C2]. split; intros x y; rewrite !Rlin3_mul by exact At.
    + rewrite D2, D1. ring.
    + rewrite C2, C1, Rlin3_scale. cbn [v3x v3y v3z]. f_equal; ring.
  - destruct (built3_finite _ _ (Similar3_built _ _ St)) as (t' & -> & Mt). change (XT3 (mkT3 (t3_inv t') (t3_forward t')) = XT3 w) in E. apply XT3_inj in E. subst w. cbn [t3_forward].
    destruct (built3_affine t' (Similar3_built _ _ St)) as [At Ai]. destruct (IHt St _ eq_refl) as [D C]. pose proof (Similar3_nz _ _ St) as Nz.
    split; intros x y.
    + pose proof (D (Rlin3 (t3_inv t') x) (Rlin3 (t3_inv t') y)) as D'. rewrite !(mutual3_lin _ _ _ Ai (proj1 Mt)) in D'. rewrite D'. field. exact Nz.
    + pose proof (C (Rlin3 (t3_inv t') x) (Rlin3 (t3_inv t') y)) as C'. rewrite !(mutual3_lin _ _ _ Ai (proj1 Mt)) in C'.
      rewrite C', Rlin3_scale, (mutual3_lin _ _ _ At (proj2 Mt)). cbn [v3x v3y v3z]. destruct (Rcross (Rlin3 (t3_inv t') x) (Rlin3 (t3_inv t') y)). cbn. f_equal; field; exact Nz.
Qed.
Lemma sim_sound2 t k : Similar2 t k -> forall w, t = XT2 w -> simR2 (t2_forward w) k.
Proof.
  intros S. induction S as [|v|a|s Hs|s sx sy Hs Hx Hy|t u k l St IHt Su IHu|t k St IHt]; intros w E.
  - pose proof (f_equal t2_forward E) as E'. refine (dot_of2 _ 1 _ E' _). intros u v; xring.
  - pose proof (f_equal t2_forward E) as E'. refine (dot_of2 _ 1 _ E' _). intros u v'; xring.
  - pose proof (f_equal t2_forward E) as E'. refine (dot_of2 _ 1 _ E' _). intros u v. apply (C41_rotation_isometry_2d_pf a u v (mkPoint2 0 0) (mkPoint2 0 0)).
  - pose proof (f_equal t2_forward E) as E'. change (XM3 (mkM3 s 0 0 0 s 0 0 0 1) = XM3 (t2_forward w)) in E'. apply XM3_inj in E'. rewrite <- E'.
    intros [? ?] [? ?]; unfold Rlin2, Rdot2; cbn; ring.
  - pose proof (f_equal t2_forward E) as E'. change (XM3 (mkM3 sx 0 0 0 sy 0 0 0 1) = XM3 (t2_forward w)) in E'. apply XM3_inj in E'. rewrite <- E'.
    intros [? ?] [? ?]; unfold Rlin2, Rdot2; cbn; destruct Hx as [-> | ->], Hy as [-> | ->]; ring.
  - destruct (built2_finite _ _ (Similar2_built _ _ St)) as (t' & -> & Mt), (built2_finite _ _ (Similar2_built _ _ Su)) as (u' & -> & Mu).
    rewrite xt2_and_then in E. apply XT2_inj in E. subst w. cbn [Rcomp2 t2_forward].
    destruct (built2_affine t' (Similar2_built _ _ St)) as [At _].
    pose proof (IHt _ eq_refl) as D1. pose proof (IHu _ eq_refl) as D2. intros x y; rewrite !Rlin2_mul by exact At. rewrite D2, D1. ring.
  - destruct (built2_finite _ _ (Similar2_built _ _ St)) as (t' & -> & Mt). change (XT2 (mkT2 (t2_inv t') (t2_forward t')) = XT2 w) in E. apply XT2_inj in E. subst w. cbn [t2_forward].
    destruct (built2_affine t' (Similar2_built _ _ St)) as [At Ai]. pose proof (IHt _ eq_refl) as D. pose proof (Similar2_nz _ _ St) as Nz.
    intros x y. pose proof (D (Rlin2 (t2_inv t') x) (Rlin2 (t2_inv t') y)) as D'. rewrite !(mutual2_lin _ _ _ Ai (proj1 Mt)) in D'. rewrite D'. field. exact Nz.
Qed.
Lemma norm_scaled2 (a b : Vector2 R) k : Rdot2 a a = k * k * Rdot2 b b -> Rnorm2 a = Rabs k * Rnorm2 b.
Proof.
  intros H. rewrite <- (sqrt_Rsqr_abs k). unfold Rsqr. assert (Q : forall v, Rnorm2 v = sqrt (Rdot2 v v)) by (intros v; unfold Rnorm2, Rdot2; f_equal; ring).
  rewrite !Q, H. rewrite sqrt_mult; [reflexivity | nra | apply Rdot2_nn].
Qed.
Lemma norm_scaled3 (a b : Vector3 R) k : Rdot3 a a = k * k * Rdot3 b b -> Rnorm3 a = Rabs k * Rnorm3 b.
Proof.
  intros H. rewrite <- (sqrt_Rsqr_abs k). unfold Rsqr. assert (Q : forall v, Rnorm3 v = sqrt (Rdot3 v v)) by (intros v; unfold Rnorm3, Rdot3; f_equal; ring).
  rewrite !Q, H. rewrite sqrt_mult; [reflexivity | nra | apply Rdot3_nn].
Qed.
Lemma C94_similarity_3d_pf : forall (t : Transform3 xreal) (k : R), Similar3 t k -> forall (p q : Point3 R) (u v : Vector3 R),
  p3_distance (t3_transform_point t (XP3 p)) (t3_transform_point t (XP3 q)) = Fin (Rabs k * Rdist3 p q) /\
  v3_length (t3_transform_vector t (XV3 v)) = Fin (Rabs k * Rnorm3 v) /\
  v3_dot (t3_transform_vector t (XV3 u)) (t3_transform_vector t (XV3 v)) = Fin (k * k * Rdot3 u v) /\
  v3_cross (t3_transform_vector t (XV3 u)) (t3_transform_vector t (XV3 v)) = v3_mul (t3_transform_vector t (v3_cross (XV3 u) (XV3 v))) (Fin k).
Proof.
  intros t k S p q u v. destruct (built3_finite _ _ (Similar3_built _ _ S)) as (w & -> & M). destruct (built3_affine w (Similar3_built _ _ S)) as [A _].
  destruct (sim_sound3 _ _ S w eq_refl) as [D C]. rewrite xv3_cross, !(XT3_eq_fwd _ w eq_refl), xv3_mul, xv3_cross, C, C20_dot_value_3d_pf, D, xv3_length, (norm_scaled3 _ v k) by apply D.
  split; [|split; [reflexivity | split; reflexivity]].
  unfold p3_distance. unfold t3_transform_point. cbn [t3_forward XT3]. rewrite C51_affine_difference_3d_pf by exact A. rewrite xp3_sub, xvec3, xv3_length. apply Fin_eq.
  rewrite (norm_scaled3 _ (mkVector3 (p3x q - p3x p) (p3y q - p3y p) (p3z q - p3z p)) k) by apply D. f_equal. unfold Rnorm3, Rdist3. cbn. f_equal. ring.
Qed.
Lemma C94_similarity_2d_pf : forall (t : Transform2 xreal) (k : R), Similar2 t k -> forall (p q : Point2 R) (u v : Vector2 R),
  p2_distance (t2_transform_point t (XP2 p)) (t2_transform_point t (XP2 q)) = Fin (Rabs k * Rdist2 p q) /\
  v2_length (t2_transform_vector t (XV2 v)) = Fin (Rabs k * Rnorm2 v) /\
  v2_dot (t2_transform_vector t (XV2 u)) (t2_transform_vector t (XV2 v)) = Fin (k * k * Rdot2 u v).
Proof.
  intros t k S p q u v. destruct (built2_finite _ _ (Similar2_built _ _ S)) as (w & -> & M). destruct (built2_affine w (Similar2_built _ _ S)) as [A _].
  pose proof (sim_sound2 _ _ S w eq_refl) as D. rewrite !(XT2_eq_fwd _ w eq_refl), C20_dot_value_2d_pf, D, xv2_length, (norm_scaled2 _ v k) by apply D.
  split; [|split; reflexivity].
  unfold p2_distance. unfold t2_transform_point. cbn [t2_forward XT2]. rewrite C51_affine_difference_2d_pf by exact A. rewrite xp2_sub, xvec2, xv2_length. apply Fin_eq.
  rewrite (norm_scaled2 _ (mkVector2 (p2x q - p2x p) (p2y q - p2y p)) k) by apply D. f_equal. unfold Rnorm2, Rdist2. cbn. f_equal. ring.
Qed.
Lemma sim_slt2 k x y : k <> 0 -> slt (Fin (Rabs k * x)) (Fin (Rabs k * y)) = slt (Fin x) (Fin y).
Proof.
  intros H. apply Rabs_pos_lt in H. cbn. do 2 case Rlt_bool_spec; intros; try reflexivity; exfalso; nra.
Qed.
Lemma sim_slt3 k x y : k <> 0 -> slt (Fin (Rabs k * x)) (Fin (Rabs k * y)) = slt (Fin x) (Fin y).
Proof.
  intros H. apply Rabs_pos_lt in H. cbn. do 2 case Rlt_bool_spec; intros; try reflexivity; exfalso; nra.
Qed.
Lemma C94_comparisons_unchanged_2d_pf : forall (t : Transform2 xreal) (k : R), Similar2 t k -> forall (p a b : Point2 R) (u v : Vector2 R),
  p2_is_closer_to (t2_transform_point t (XP2 p)) (t2_transform_point t (XP2 a)) (t2_transform_point t (XP2 b)) = p2_is_closer_to (XP2 p) (XP2 a) (XP2 b) /\
  p2_is_farther_from (t2_transform_point t (XP2 p)) (t2_transform_point t (XP2 a)) (t2_transform_point t (XP2 b)) = p2_is_farther_from (XP2 p) (XP2 a) (XP2 b) /\
  p2_closest (t2_transform_point t (XP2 p)) (t2_transform_point t (XP2 a)) (t2_transform_point t (XP2 b)) = t2_transform_point t (p2_closest (XP2 p) (XP2 a) (XP2 b)) /\
  p2_farthest (t2_transform_point t (XP2 p)) (t2_transform_point t (XP2 a)) (t2_transform_point t (XP2 b)) = t2_transform_point t (p2_farthest (XP2 p) (XP2 a) (XP2 b)) /\
  v2_is_shorter_than (t2_transform_vector t (XV2 u)) (t2_transform_vector t (XV2 v)) = v2_is_shorter_than (XV2 u) (XV2 v) /\
  v2_is_longer_than (t2_transform_vector t (XV2 u)) (t2_transform_vector t (XV2 v)) = v2_is_longer_than (XV2 u) (XV2 v) /\
  v2_shortest (t2_transform_vector t (XV2 u)) (t2_transform_vector t (XV2 v)) = t2_transform_vector t (v2_shortest (XV2 u) (XV2 v)) /\
  v2_longest (t2_transform_vector t (XV2 u)) (t2_transform_vector t (XV2 v)) = t2_transform_vector t (v2_longest (XV2 u) (XV2 v)).
Proof.
  intros t k S p a b u v. pose proof (Similar2_nz _ _ S) as Nz. destruct (built2_finite _ _ (Similar2_built _ _ S)) as (w & -> & M). destruct (built2_affine w (Similar2_built _ _ S)) as [A _].
  assert (Dp : forall p q : Point2 R, p2_distance (XP2 (img2 (t2_forward w) p)) (XP2 (img2 (t2_forward w) q)) = Fin (Rabs k * Rdist2 p q)).
  { intros x y. rewrite <- !xm2_point_affine by exact A. apply (C94_similarity_2d_pf _ _ S x y u v). }
  assert (Dl : forall v : Vector2 R, v2_length (XV2 (Rlin2 (t2_forward w) v)) = Fin (Rabs k * Rnorm2 v)).
  { intros x. rewrite <- xvec2. apply (C94_similarity_2d_pf _ _ S p p x x). }
  assert (E : forall x, t2_transform_point (XT2 w) (XP2 x) = XP2 (img2 (t2_forward w) x)) by (intros x; exact (xm2_point_affine _ x A)).
  assert (C1 : p2_is_closer_to (t2_transform_point (XT2 w) (XP2 p)) (t2_transform_point (XT2 w) (XP2 a)) (t2_transform_point (XT2 w) (XP2 b)) = p2_is_closer_to (XP2 p) (XP2 a) (XP2 b) /\
    p2_is_farther_from (t2_transform_point (XT2 w) (XP2 p)) (t2_transform_point (XT2 w) (XP2 a)) (t2_transform_point (XT2 w) (XP2 b)) = p2_is_farther_from (XP2 p) (XP2 a) (XP2 b)).
  { rewrite !E. rewrite !(proj1 (C28_relative_distance_exact_2d_pf _ _ _)), !(proj2 (C28_relative_distance_exact_2d_pf _ _ _)), !Dp, !sim_slt2 by exact Nz. rewrite !C27_distance_value_2d_pf. split; reflexivity. }
  assert (C2 : v2_is_shorter_than (t2_transform_vector (XT2 w) (XV2 u)) (t2_transform_vector (XT2 w) (XV2 v)) = v2_is_shorter_than (XV2 u) (XV2 v) /\
    v2_is_longer_than (t2_transform_vector (XT2 w) (XV2 u)) (t2_transform_vector (XT2 w) (XV2 v)) = v2_is_longer_than (XV2 u) (XV2 v)).
  { rewrite !(XT2_eq_fwd _ w eq_refl). rewrite !(proj1 (C25_relative_length_exact_2d_pf _ _)), !(proj2 (C25_relative_length_exact_2d_pf _ _)), !Dl, !sim_slt2 by exact Nz. rewrite !xv2_length. split; reflexivity. }
  destruct C1 as [C1 C1'], C2 as [C2 C2']. unfold p2_closest, p2_farthest, v2_shortest, v2_longest. rewrite C1, C1', C2, C2'.
  repeat split; [destruct (p2_is_closer_to (XP2 p) (XP2 a) (XP2 b)) | destruct (p2_is_farther_from (XP2 p) (XP2 a) (XP2 b)) | destruct (v2_is_shorter_than (XV2 u) (XV2 v)) | destruct (v2_is_longer_than (XV2 u) (XV2 v))]; reflexivity.
Qed.
Lemma C94_comparisons_unchanged_3d_pf : forall (t : Transform3 xreal) (k : R), Similar3 t k -> forall (p a b : Point3 R) (u v : Vector3 R),
  p3_is_closer_to (t3_transform_point t (XP3 p)) (t3_transform_point t (XP3 a)) (t3_transform_point t (XP3 b)) = p3_is_closer_to (XP3 p) (XP3 a) (XP3 b) /\
  p3_is_farther_from (t3_transform_point t (XP3 p)) (t3_transform_point t (XP3 a)) (t3_transform_point t (XP3 b)) = p3_is_farther_from (XP3 p) (XP3 a) (XP3 b) /\
  p3_closest (t3_transform_point t (XP3 p)) (t3_transform_point t (XP3 a)) (t3_transform_point t (XP3 b)) = t3_transform_point t (p3_closest (XP3 p) (XP3 a) (XP3 b)) /\
  p3_farthest (t3_transform_point t (XP3 p)) (t3_transform_point t (XP3 a)) (t3_transform_point t (XP3 b)) = t3_transform_point t (p3_farthest (XP3 p) (XP3 a) (XP3 b)) /\
  v3_is_shorter_than (t3_transform_vector t (XV3 u)) (t3_transform_vector t (XV3 v)) = v3_is_shorter_than (XV3 u) (XV3 v) /\
  v3_is_longer_than (t3_transform_vector t (XV3 u)) (t3_transform_vector t (XV3 v)) = v3_is_longer_than (XV3 u) (XV3 v) /\
  v3_shortest (t3_transform_vector t (XV3 u)) (t3_transform_vector t (XV3 v)) = t3_transform_vector t (v3_shortest (XV3 u) (XV3 v)) /\
  v3_longest (t3_transform_vector t (XV3 u)) (t3_transform_vector t (XV3 v)) = t3_transform_vector t (v3_longest (XV3 u) (XV3 v)).
Proof.
  intros t k S p a b u v. pose proof (Similar3_nz _ _ S) as Nz. destruct (built3_finite _ _ (Similar3_built _ _ S)) as (w & -> & M). destruct (built3_affine w (Similar3_built _ _ S)) as [A _].
  assert (Dp : forall p q : Point3 R, p3_distance (XP3 (img3 (t3_forward w) p)) (XP3 (img3 (t3_forward w) q)) = Fin (Rabs k * Rdist3 p q)).
  { intros x y. rewrite <- !xm3_point_affine by exact A. apply (C94_similarity_3d_pf _ _ S x y u v). }
  assert (Dl : forall v : Vector3 R, v3_length (XV3 (Rlin3 (t3_forward w) v)) = Fin (Rabs k * Rnorm3 v)).
  { intros x. rewrite <- xvec3. apply (C94_similarity_3d_pf _ _ S p p x x). }
  assert (E : forall x, t3_transform_point (XT3 w) (XP3 x) = XP3 (img3 (t3_forward w) x)) by (intros x; exact (xm3_point_affine _ x A)).
  assert (C1 : p3_is_closer_to (t3_transform_point (XT3 w) (XP3 p)) (t3_transform_point (XT3 w) (XP3 a)) (t3_transform_point (XT3 w) (XP3 b)) = p3_is_closer_to (XP3 p) (XP3 a) (XP3 b) /\
    p3_is_farther_from (t3_transform_point (XT3 w) (XP3 p)) (t3_transform_point (XT3 w) (XP3 a)) (t3_transform_point (XT3 w) (XP3 b)) = p3_is_farther_from (XP3 p) (XP3 a) (XP3 b)).
  { rewrite !E. rewrite !(proj1 (C28_relative_distance_exact_3d_pf _ _ _)), !(proj2 (C28_relative_distance_exact_3d_pf _ _ _)), !Dp, !sim_slt3 by exact Nz. rewrite !C27_distance_value_3d_pf. split; reflexivity. }
  assert (C2 : v3_is_shorter_than (t3_transform_vector (XT3 w) (XV3 u)) (t3_transform_vector (XT3 w) (XV3 v)) = v3_is_shorter_than (XV3 u) (XV3 v) /\
    v3_is_longer_than (t3_transform_vector (XT3 w) (XV3 u)) (t3_transform_vector (XT3 w) (XV3 v)) = v3_is_longer_than (XV3 u) (XV3 v)).
  { rewrite !(XT3_eq_fwd _ w eq_refl). rewrite !(proj1 (C25_relative_length_exact_3d_pf _ _)), !(proj2 (C25_relative_length_exact_3d_pf _ _)), !Dl, !sim_slt3 by exact Nz. rewrite !xv3_length. split; reflexivity. }
  destruct C1 as [C1 C1'], C2 as [C2 C2']. unfold p3_closest, p3_farthest, v3_shortest, v3_longest. rewrite C1, C1', C2, C2'.
  repeat split; [destruct (p3_is_closer_to (XP3 p) (XP3 a) (XP3 b)) | destruct (p3_is_farther_from (XP3 p) (XP3 a) (XP3 b)) | destruct (v3_is_shorter_than (XV3 u) (XV3 v)) | destruct (v3_is_longer_than (XV3 u) (XV3 v))]; reflexivity.
Qed.
Definition ZP2 : Point2 R := mkPoint2 0 0.
Lemma unit_dot2 (a b : Vector2 R) : a <> Rzero2 -> b <> Rzero2 -> v2_dot (v2_normalize (XV2 a)) (v2_normalize (XV2 b)) = Fin (Rdot2 a b / (Rnorm2 a * Rnorm2 b)).
Proof.
  intros Ha Hb. rewrite !xv2_normalize by assumption. rewrite C20_dot_value_2d_pf. apply Fin_eq. unfold Rdot2. cbn.
  assert (Rnorm2 a <> 0) by (rewrite Rnorm2_zero; exact Ha). assert (Rnorm2 b <> 0) by (rewrite Rnorm2_zero; exact Hb). field. now split.
Qed.
Definition ZP3 : Point3 R := mkPoint3 0 0 0.
Lemma unit_dot3 (a b : Vector3 R) : a <> Rzero3 -> b <> Rzero3 -> v3_dot (v3_normalize (XV3 a)) (v3_normalize (XV3 b)) = Fin (Rdot3 a b / (Rnorm3 a * Rnorm3 b)).
Proof.
  intros Ha Hb. rewrite !xv3_normalize by assumption. rewrite C20_dot_value_3d_pf. apply Fin_eq. unfold Rdot3. cbn.
  assert (Rnorm3 a <> 0) by (rewrite Rnorm3_zero; exact Ha). assert (Rnorm3 b <> 0) by (rewrite Rnorm3_zero; exact Hb). field. now split.
Qed.
Lemma C94_angles_unchanged_2d_pf : forall (t : Transform2 xreal) (k : R), Similar2 t k -> forall u v : Vector2 R, u <> Rzero2 -> v <> Rzero2 ->
  v2_dot (v2_normalize (t2_transform_vector t (XV2 u))) (v2_normalize (t2_transform_vector t (XV2 v))) =
  v2_dot (v2_normalize (XV2 u)) (v2_normalize (XV2 v)).
Proof.
  intros t k S u v Hu Hv. pose proof (Similar2_nz _ _ S) as Nz. destruct (built2_finite _ _ (Similar2_built _ _ S)) as (w & -> & M).
  assert (N : forall x : Vector2 R, Rnorm2 (Rlin2 (t2_forward w) x) = Rabs k * Rnorm2 x).
  { intros x. apply Fin_inj. rewrite <- xv2_length, <- xvec2. apply (C94_similarity_2d_pf _ _ S ZP2 ZP2 x x). }
  assert (D : Rdot2 (Rlin2 (t2_forward w) u) (Rlin2 (t2_forward w) v) = k * k * Rdot2 u v).
  { apply Fin_inj. rewrite <- C20_dot_value_2d_pf, <- !xvec2. apply (C94_similarity_2d_pf _ _ S ZP2 ZP2 u v). }
  assert (Z : forall x : Vector2 R, x <> Rzero2 -> Rnorm2 x <> 0) by (intros x Hx; rewrite Rnorm2_zero; exact Hx).
  assert (Q : forall x : Vector2 R, x <> Rzero2 -> Rlin2 (t2_forward w) x <> Rzero2).
  { intros x Hx E. apply (Z x Hx). apply Rnorm2_zero in E. rewrite N in E. apply Rmult_integral in E. destruct E as [E|E]; [|exact E]. apply Rabs_no_R0 in Nz. contradiction. }
  rewrite !(XT2_eq_fwd _ w eq_refl), !unit_dot2 by auto. apply Fin_eq. rewrite D, !N. pose proof (Z u Hu). pose proof (Z v Hv).
  assert (A : k * k = Rabs k * Rabs k) by (unfold Rabs; destruct (Rcase_abs k); ring). rewrite A. apply Rabs_no_R0 in Nz. field. tauto.
Qed.
Lemma C94_angles_unchanged_3d_pf : forall (t : Transform3 xreal) (k : R), Similar3 t k -> forall u v : Vector3 R, u <> Rzero3 -> v <> Rzero3 ->
  v3_dot (v3_normalize (t3_transform_vector t (XV3 u))) (v3_normalize (t3_transform_vector t (XV3 v))) =
  v3_dot (v3_normalize (XV3 u)) (v3_normalize (XV3 v)).
Proof.
  intros t k S u v Hu Hv. pose proof (Similar3_nz _ _ S) as Nz. destruct (built3_finite _ _ (Similar3_built _ _ S)) as (w & -> & M).
  assert (N : forall x : Vector3 R, Rnorm3 (Rlin3 (t3_forward w) x) = Rabs k * Rnorm3 x).
  { intros x. apply Fin_inj. rewrite <- xv3_length, <- xvec3. apply (C94_similarity_3d_pf _ _ S ZP3 ZP3 x x). }
  assert (D : Rdot3 (Rlin3 (t3_forward w) u) (Rlin3 (t3_forward w) v) = k * k * Rdot3 u v).
  { apply Fin_inj. rewrite <- C20_dot_value_3d_pf, <- !xvec3. apply (C94_similarity_3d_pf _ _ S ZP3 ZP3 u v). }
  assert (Z : forall x : Vector3 R, x <> Rzero3 -> Rnorm3 x <> 0) by (intros x Hx; rewrite Rnorm3_zero; exact Hx).
  assert (Q : forall x : Vector3 R, x <> Rzero3 -> Rlin3 (t3_forward w) x <> Rzero3).
  { intros x Hx E. apply (Z x Hx). apply Rnorm3_zero in E. rewrite N in E. apply Rmult_integral in E. destruct E as [E|E]; [|exact E]. apply Rabs_no_R0 in Nz. contradiction. }
  rewrite !(XT3_eq_fwd _ w eq_refl), !unit_dot3 by auto. apply Fin_eq. rewrite D, !N. pose proof (Z u Hu). pose proof (Z v Hv).
  assert (A : k * k = Rabs k * Rabs k) by (unfold Rabs; destruct (Rcase_abs k); ring). rewrite A. apply Rabs_no_R0 in Nz. field. tauto.
Qed.
