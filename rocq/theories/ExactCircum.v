(** Proofs: the ball around a box (C119). *)
From Coq Require Import Bool NArith ZArith Reals List Lra Lia Psatz.
From Verif Require Import Scalar Types Vector2 Vector3 Point2 Point3 Ray BoundingBox2 BoundingBox3 Transform2 Transform3
  XReal OrdLaws Arith SpecOrder SpecReal SpecBox SpecHull XTac ExactBase ExactVec ExactBox ExactTransRay ExactProj.
Import ListNotations.
Local Open Scope R_scope.
Definition mid2 (b : BoundingBox2 R) : Point2 R := mkPoint2 ((p2x (bb2_min b) + p2x (bb2_max b)) / 2) ((p2y (bb2_min b) + p2y (bb2_max b)) / 2).
(* half of the squared diagonal's length *)
Definition hsq2 (b : BoundingBox2 R) : R := ((p2x (bb2_max b) - p2x (bb2_min b)) / 2) ^ 2 + ((p2y (bb2_max b) - p2y (bb2_min b)) / 2) ^ 2.
Definition dsq2 (p q : Point2 R) : R := (p2x p - p2x q) ^ 2 + (p2y p - p2y q) ^ 2.
Lemma hsq2_nn b : 0 <= hsq2 b.
Proof. unfold hsq2. apply Rplus_le_le_0_compat; apply pow2_ge_0. Qed.
Lemma dsq2_nn p q : 0 <= dsq2 p q.
Proof. unfold dsq2. apply Rplus_le_le_0_compat; apply pow2_ge_0. Qed.
Lemma dsq2_zero p q : dsq2 p q <= 0 -> p = q.
Proof.
  unfold dsq2. intros H. pose proof (pow2_ge_0 (p2x p - p2x q)). pose proof (pow2_ge_0 (p2y p - p2y q)).
  assert (X : (p2x p - p2x q) ^ 2 = 0) by lra. assert (Y : (p2y p - p2y q) ^ 2 = 0) by lra.
  destruct p, q. cbn -[pow] in *. f_equal; nra.
Qed.
Lemma in_dsq2 b p : Rin2 p b -> dsq2 (mid2 b) p <= hsq2 b.
Proof. unfold Rin2, dsq2, hsq2, mid2. cbn [p2x p2y]. intros [X Y]. apply Rplus_le_compat; nra. Qed.
Lemma touch2 a b : Rover2 a b -> Rordered2 a -> Rordered2 b -> exists p, Rin2 p a /\ Rin2 p b.
Proof.
  unfold Rover2, Rordered2, Rin2. intros [X Y] [A1 A2] [B1 B2]. exists (mkPoint2 (Rmax (p2x (bb2_min a)) (p2x (bb2_min b))) (Rmax (p2y (bb2_min a)) (p2y (bb2_min b)))). cbn [p2x p2y].
  repeat split; try apply Rmax_l; try apply Rmax_r; apply Rmax_lub; lra.
Qed.
Definition mid3 (b : BoundingBox3 R) : Point3 R := mkPoint3 ((p3x (bb3_min b) + p3x (bb3_max b)) / 2) ((p3y (bb3_min b) + p3y (bb3_max b)) / 2) ((p3z (bb3_min b) + p3z (bb3_max b)) / 2).
Definition hsq3 (b : BoundingBox3 R) : R := ((p3x (bb3_max b) - p3x (bb3_min b)) / 2) ^ 2 + ((p3y (bb3_max b) - p3y (bb3_min b)) / 2) ^ 2 + ((p3z (bb3_max b) - p3z (bb3_min b)) / 2) ^ 2.
Definition dsq3 (p q : Point3 R) : R := (p3x p - p3x q) ^ 2 + (p3y p - p3y q) ^ 2 + (p3z p - p3z q) ^ 2.
Lemma hsq3_nn b : 0 <= hsq3 b.
Proof. unfold hsq3. repeat apply Rplus_le_le_0_compat; apply pow2_ge_0. Qed.
Lemma dsq3_nn p q : 0 <= dsq3 p q.
Proof. unfold dsq3. repeat apply Rplus_le_le_0_compat; apply pow2_ge_0. Qed.
Lemma dsq3_zero p q : dsq3 p q <= 0 -> p = q.
Proof.
  unfold dsq3. intros H. pose proof (pow2_ge_0 (p3x p - p3x q)). pose proof (pow2_ge_0 (p3y p - p3y q)). pose proof (pow2_ge_0 (p3z p - p3z q)).
  assert (X : (p3x p - p3x q) ^ 2 = 0) by lra. assert (Y : (p3y p - p3y q) ^ 2 = 0) by lra. assert (Z : (p3z p - p3z q) ^ 2 = 0) by lra.
  destruct p, q. cbn -[pow] in *. f_equal; nra.
Qed.
Lemma in_dsq3 b p : Rin3 p b -> dsq3 (mid3 b) p <= hsq3 b.
Proof. unfold Rin3, dsq3, hsq3, mid3. cbn [p3x p3y p3z]. intros (X & Y & Z). repeat apply Rplus_le_compat; nra. Qed.
Lemma touch3 a b : Rover3 a b -> Rordered3 a -> Rordered3 b -> exists p, Rin3 p a /\ Rin3 p b.
Proof.
  unfold Rover3, Rordered3, Rin3. intros (X & Y & Z) (A1 & A2 & A3) (B1 & B2 & B3).
  exists (mkPoint3 (Rmax (p3x (bb3_min a)) (p3x (bb3_min b))) (Rmax (p3y (bb3_min a)) (p3y (bb3_min b))) (Rmax (p3z (bb3_min a)) (p3z (bb3_min b)))). cbn [p3x p3y p3z].
  repeat split; try apply Rmax_l; try apply Rmax_r; apply Rmax_lub; lra.
Qed.
Lemma xcenter2 b : bb2_center (XB2 b) = XP2 (mid2 b).
Proof. exact (proj1 (C13_center_exact_2d_pf b)). Qed.
Lemma xdist2 p q : p2_distance (XP2 p) (XP2 q) = Fin (sqrt (dsq2 p q)).
Proof. exact (C27_distance_value_2d_pf p q). Qed.
Lemma xhalf2 b : smul (v2_length (bb2_diagonal (XB2 b))) shalf = Fin (sqrt (hsq2 b)).
Proof.
  unfold bb2_diagonal. cbn [XB2 bb2_min bb2_max]. rewrite xp2_sub, xv2_length. cbn [smul shalf xreal_ops xmul]. apply Fin_eq.
  rewrite <- (sqrt_pow2 (1 / 2)) by lra. unfold Rnorm2. rewrite <- sqrt_mult_alt.
  - f_equal. unfold hsq2. cbn. field.
  - repeat apply Rplus_le_le_0_compat; apply pow2_ge_0.
Qed.
Lemma corner_dsq2 b c : In c (cps2 b) -> dsq2 (mid2 b) c = hsq2 b.
Proof.
  unfold cps2, dsq2, hsq2, mid2. cbn [In]. intros H. repeat (destruct H as [<-|H]); [..|destruct H]; cbn; field.
Qed.
(* the corners at either end of the diagonal *)
Lemma ends2 b q : dsq2 q (bb2_min b) + dsq2 q (bb2_max b) = 2 * dsq2 (mid2 b) q + 2 * hsq2 b.
Proof. unfold dsq2, hsq2, mid2. cbn. field. Qed.
Lemma ends_in2 b : In (bb2_min b) (cps2 b) /\ In (bb2_max b) (cps2 b).
Proof. destruct b as [[] []]. unfold cps2. cbn. tauto. Qed.
Lemma Rdist_tri2 p q r : sqrt (dsq2 p r) <= sqrt (dsq2 p q) + sqrt (dsq2 q r).
Proof.
  pose proof (proj2 (proj2 (proj2 (C27_distance_metric_2d_pf p q r)))) as H. rewrite !xdist2 in H. unfold Le in H. cbn [sle sadd xreal_ops xadd] in H. now apply xle_fin in H.
Qed.
Lemma xcenter3 b : bb3_center (XB3 b) = XP3 (mid3 b).
Proof. exact (proj1 (C13_center_exact_3d_pf b)). Qed.
Lemma xdist3 p q : p3_distance (XP3 p) (XP3 q) = Fin (sqrt (dsq3 p q)).
Proof. exact (C27_distance_value_3d_pf p q). Qed.
Lemma xhalf3 b : smul (v3_length (bb3_diagonal (XB3 b))) shalf = Fin (sqrt (hsq3 b)).
Proof.
  unfold bb3_diagonal. cbn [XB3 bb3_min bb3_max]. rewrite xp3_sub, xv3_length. cbn [smul shalf xreal_ops xmul]. apply Fin_eq.
  rewrite <- (sqrt_pow2 (1 / 2)) by lra. unfold Rnorm3. rewrite <- sqrt_mult_alt.
  - f_equal. unfold hsq3. cbn. field.
  - repeat apply Rplus_le_le_0_compat; apply pow2_ge_0.
Qed.
Lemma corner_dsq3 b c : In c (cps3 b) -> dsq3 (mid3 b) c = hsq3 b.
Proof.
  unfold cps3, dsq3, hsq3, mid3. cbn [In]. intros H. repeat (destruct H as [<-|H]); [..|destruct H]; cbn; field.
Qed.
(* the corners at either end of the diagonal *)
Lemma ends3 b q : dsq3 q (bb3_min b) + dsq3 q (bb3_max b) = 2 * dsq3 (mid3 b) q + 2 * hsq3 b.
Proof. unfold dsq3, hsq3, mid3. cbn. field. Qed.
Lemma ends_in3 b : In (bb3_min b) (cps3 b) /\ In (bb3_max b) (cps3 b).
Proof. destruct b as [[] []]. unfold cps3. cbn. tauto. Qed.
Lemma Rdist_tri3 p q r : sqrt (dsq3 p r) <= sqrt (dsq3 p q) + sqrt (dsq3 q r).
Proof.
  pose proof (proj2 (proj2 (proj2 (C27_distance_metric_3d_pf p q r)))) as H. rewrite !xdist3 in H. unfold Le in H. cbn [sle sadd xreal_ops xadd] in H. now apply xle_fin in H.
Qed.
Lemma C119_ball_contains_box_2d_pf : forall (prof : profile) (b : BoundingBox2 R), let radius := smul (v2_length (bb2_diagonal (XB2 b))) shalf in
  (forall p : Point2 R, Rin2 p b -> Le (p2_distance (bb2_center (XB2 b)) (XP2 p)) radius) /\
  (forall c : Point2 xreal, In c (corners2 prof (XB2 b)) -> p2_distance (bb2_center (XB2 b)) c = radius).
Proof.
  intros prof b. cbv zeta. rewrite xcenter2, xhalf2. split.
  - intros p I. rewrite xdist2. unfold Le. cbn [sle xreal_ops]. apply xle_fin. apply sqrt_le_1_alt. now apply in_dsq2.
  - intros c I. rewrite cps2_corners in I. apply in_map_iff in I. destruct I as (k & <- & I). rewrite xdist2. apply Fin_eq. now rewrite corner_dsq2.
Qed.
Lemma C119_ball_contains_box_3d_pf : forall (prof : profile) (b : BoundingBox3 R), let radius := smul (v3_length (bb3_diagonal (XB3 b))) shalf in
  (forall p : Point3 R, Rin3 p b -> Le (p3_distance (bb3_center (XB3 b)) (XP3 p)) radius) /\
  (forall c : Point3 xreal, In c (corners3 prof (XB3 b)) -> p3_distance (bb3_center (XB3 b)) c = radius).
Proof.
  intros prof b. cbv zeta. rewrite xcenter3, xhalf3. split.
  - intros p I. rewrite xdist3. unfold Le. cbn [sle xreal_ops]. apply xle_fin. apply sqrt_le_1_alt. now apply in_dsq3.
  - intros c I. rewrite cps3_corners in I. apply in_map_iff in I. destruct I as (k & <- & I). rewrite xdist3. apply Fin_eq. now rewrite corner_dsq3.
Qed.
Lemma C119_smallest_ball_2d_pf : forall (prof : profile) (b : BoundingBox2 R) (q : Point2 R) (r : R), let radius := smul (v2_length (bb2_diagonal (XB2 b))) shalf in
  (forall c : Point2 xreal, In c (corners2 prof (XB2 b)) -> Le (p2_distance (XP2 q) c) (Fin r)) ->
  Le radius (Fin r) /\ (radius = Fin r -> XP2 q = bb2_center (XB2 b)).
Proof.
  intros prof b q r. cbv zeta. rewrite xcenter2, xhalf2. intros H. destruct (ends_in2 b) as [E1 E2].
  assert (K : forall k, In k (cps2 b) -> 0 <= r /\ dsq2 q k <= r * r).
  { intros k I. specialize (H (XP2 k)). rewrite cps2_corners in H. specialize (H (in_map XP2 _ _ I)). rewrite xdist2 in H. unfold Le in H. cbn [sle xreal_ops] in H. apply xle_fin in H.
    pose proof (sqrt_pos (dsq2 q k)). split; [lra|]. rewrite <- (sqrt_sqrt (dsq2 q k)) by apply dsq2_nn. apply Rmult_le_compat; lra. }
  destruct (K _ E1) as [R0 K1], (K _ E2) as [_ K2]. pose proof (ends2 b q) as S. pose proof (dsq2_nn (mid2 b) q) as N. split.
  - unfold Le. cbn [sle xreal_ops]. apply xle_fin. rewrite <- (sqrt_square r) by exact R0. apply sqrt_le_1_alt. lra.
  - intros E. injection E as E. pose proof (sqrt_sqrt (hsq2 b) (hsq2_nn b)) as Q. rewrite E in Q. f_equal. symmetry. apply dsq2_zero. lra.
Qed.
Lemma C119_smallest_ball_3d_pf : forall (prof : profile) (b : BoundingBox3 R) (q : Point3 R) (r : R), let radius := smul (v3_length (bb3_diagonal (XB3 b))) shalf in
  (forall c : Point3 xreal, In c (corners3 prof (XB3 b)) -> Le (p3_distance (XP3 q) c) (Fin r)) ->
  Le radius (Fin r) /\ (radius = Fin r -> XP3 q = bb3_center (XB3 b)).
Proof.
  intros prof b q r. cbv zeta. rewrite xcenter3, xhalf3. intros H. destruct (ends_in3 b) as [E1 E2].
  assert (K : forall k, In k (cps3 b) -> 0 <= r /\ dsq3 q k <= r * r).
  { intros k I. specialize (H (XP3 k)). rewrite cps3_corners in H. specialize (H (in_map XP3 _ _ I)). rewrite xdist3 in H. unfold Le in H. cbn [sle xreal_ops] in H. apply xle_fin in H.
    pose proof (sqrt_pos (dsq3 q k)). split; [lra|]. rewrite <- (sqrt_sqrt (dsq3 q k)) by apply dsq3_nn. apply Rmult_le_compat; lra. }
  destruct (K _ E1) as [R0 K1], (K _ E2) as [_ K2]. pose proof (ends3 b q) as S. pose proof (dsq3_nn (mid3 b) q) as N. split.
  - unfold Le. cbn [sle xreal_ops]. apply xle_fin. rewrite <- (sqrt_square r) by exact R0. apply sqrt_le_1_alt. lra.
  - intros E. injection E as E. pose proof (sqrt_sqrt (hsq3 b) (hsq3_nn b)) as Q. rewrite E in Q. f_equal. symmetry. apply dsq3_zero. lra.
Qed.
Lemma C119_apart_2d_pf : forall (a b : BoundingBox2 R), Rordered2 a -> Rordered2 b ->
  let radius := (fun c => smul (v2_length (bb2_diagonal (XB2 c))) shalf) in
  (slt (sadd (radius a) (radius b)) (p2_distance (bb2_center (XB2 a)) (bb2_center (XB2 b))) = true -> bb2_overlaps (XB2 a) (XB2 b) = false) /\
  (forall p : Point2 R, slt (radius a) (p2_distance (bb2_center (XB2 a)) (XP2 p)) = true -> bb2_is_inside (XB2 a) (XP2 p) = false).
Proof.
  intros a b A B. cbv zeta. rewrite !xcenter2, !xhalf2. split.
  - rewrite xdist2. cbn [slt sadd xreal_ops xadd]. intros H. apply xlt_fin in H. destruct (bb2_overlaps (XB2 a) (XB2 b)) eqn:E; [|reflexivity]. exfalso.
    apply xover2 in E. destruct (touch2 a b E A B) as (p & I & J). apply in_dsq2 in I, J. pose proof (Rdist_tri2 (mid2 a) p (mid2 b)) as T.
    replace (dsq2 p (mid2 b)) with (dsq2 (mid2 b) p) in T by (unfold dsq2; ring). apply sqrt_le_1_alt in I, J. lra.
  - intros p. rewrite xdist2. cbn [slt xreal_ops]. intros H. apply xlt_fin in H. destruct (bb2_is_inside (XB2 a) (XP2 p)) eqn:E; [|reflexivity]. exfalso.
    apply xle_iff2_inside in E. apply in_dsq2 in E. apply sqrt_le_1_alt in E. lra.
Qed.
Lemma C119_apart_3d_pf : forall (a b : BoundingBox3 R), Rordered3 a -> Rordered3 b ->
  let radius := (fun c => smul (v3_length (bb3_diagonal (XB3 c))) shalf) in
  (slt (sadd (radius a) (radius b)) (p3_distance (bb3_center (XB3 a)) (bb3_center (XB3 b))) = true -> bb3_overlaps (XB3 a) (XB3 b) = false) /\
  (forall p : Point3 R, slt (radius a) (p3_distance (bb3_center (XB3 a)) (XP3 p)) = true -> bb3_is_inside (XB3 a) (XP3 p) = false).
Proof.
  intros a b A B. cbv zeta. rewrite !xcenter3, !xhalf3. split.
  - rewrite xdist3. cbn [slt sadd xreal_ops xadd]. intros H. apply xlt_fin in H. destruct (bb3_overlaps (XB3 a) (XB3 b)) eqn:E; [|reflexivity]. exfalso.
    apply xover3 in E. destruct (touch3 a b E A B) as (p & I & J). apply in_dsq3 in I, J. pose proof (Rdist_tri3 (mid3 a) p (mid3 b)) as T.
    replace (dsq3 p (mid3 b)) with (dsq3 (mid3 b) p) in T by (unfold dsq3; ring). apply sqrt_le_1_alt in I, J. lra.
  - intros p. rewrite xdist3. cbn [slt xreal_ops]. intros H. apply xlt_fin in H. destruct (bb3_is_inside (XB3 a) (XP3 p)) eqn:E; [|reflexivity]. exfalso.
    apply xle_iff3_inside in E. apply in_dsq3 in E. apply sqrt_le_1_alt in E. lra.
Qed.
Definition cube2 (lo : R) : BoundingBox2 R := mkBB2 (mkPoint2 lo lo) (mkPoint2 (lo + 1) (lo + 1)).
Definition pt2 (x : R) : Point2 R := mkPoint2 x x.
Definition cube3 (lo : R) : BoundingBox3 R := mkBB3 (mkPoint3 lo lo lo) (mkPoint3 (lo + 1) (lo + 1) (lo + 1)).
Definition pt3 (x : R) : Point3 R := mkPoint3 x x x.
Lemma far2 : slt (sadd (smul (v2_length (bb2_diagonal (XB2 (cube2 0)))) shalf) (smul (v2_length (bb2_diagonal (XB2 (cube2 4)))) shalf))
   (p2_distance (bb2_center (XB2 (cube2 0))) (bb2_center (XB2 (cube2 4)))) = true.
Proof.
  rewrite !xcenter2, !xhalf2, xdist2. cbn [slt sadd xreal_ops xadd]. apply xlt_fin.
  assert (H : forall x y z, x = y -> y < 1 -> 4 < z -> sqrt x + sqrt y < sqrt z).
  { intros x y z -> Hy Hz. pose proof (sqrt_lt_1_alt 4 z ltac:(lra)) as Z. replace 4 with (2 * 2) in Z by ring. rewrite sqrt_square in Z by lra.
    assert (Y : sqrt y <= 1) by (rewrite <- sqrt_1; apply sqrt_le_1_alt; lra). lra. }
  apply H; unfold hsq2, dsq2, mid2, cube2; cbn; lra.
Qed.
Lemma far3 : slt (sadd (smul (v3_length (bb3_diagonal (XB3 (cube3 0)))) shalf) (smul (v3_length (bb3_diagonal (XB3 (cube3 4)))) shalf))
   (p3_distance (bb3_center (XB3 (cube3 0))) (bb3_center (XB3 (cube3 4)))) = true.
Proof.
  rewrite !xcenter3, !xhalf3, xdist3. cbn [slt sadd xreal_ops xadd]. apply xlt_fin.
  assert (H : forall x y z, x = y -> y < 1 -> 4 < z -> sqrt x + sqrt y < sqrt z).
  { intros x y z -> Hy Hz. pose proof (sqrt_lt_1_alt 4 z ltac:(lra)) as Z. replace 4 with (2 * 2) in Z by ring. rewrite sqrt_square in Z by lra.
    assert (Y : sqrt y <= 1) by (rewrite <- sqrt_1; apply sqrt_le_1_alt; lra). lra. }
  apply H; unfold hsq3, dsq3, mid3, cube3; cbn; lra.
Qed.
