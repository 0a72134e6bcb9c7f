(** Proofs: projections, reflections and the nearest point of a ray (C121). *)
From Coq Require Import Bool NArith ZArith Reals List Lra Lia Psatz.
From Verif Require Import Scalar Types Vector2 Vector3 Point2 Point3 Ray BoundingBox2 BoundingBox3 Transform2 Transform3
  XReal OrdLaws Arith SpecOrder SpecReal SpecBox SpecHull SpecReflect XTac ExactBase ExactVec ExactBox ExactMat ExactTrans ExactTransRay ExactProj ExactCircum.
Local Open Scope R_scope.
Definition Rmv2 (n : Vector2 R) (k : R) : Vector2 R := mkVector2 (v2x n * k) (v2y n * k).
Definition Rsv2 (v w : Vector2 R) : Vector2 R := mkVector2 (v2x v - v2x w) (v2y v - v2y w).
Definition Rpp2 (p q : Point2 R) : Vector2 R := mkVector2 (p2x p - p2x q) (p2y p - p2y q).
Ltac fv2 := repeat match goal with v : Vector2 R |- _ => destruct v | p : Point2 R |- _ => destruct p | r : Ray2 R |- _ => destruct r end;
  unfold Rmv2, Rsv2, Rpp2, Rdot2, Rat2, dsq2 in *; cbn [v2x v2y p2x p2y r2_origin r2_direction] in *.
Definition Rmv3 (n : Vector3 R) (k : R) : Vector3 R := mkVector3 (v3x n * k) (v3y n * k) (v3z n * k).
Definition Rsv3 (v w : Vector3 R) : Vector3 R := mkVector3 (v3x v - v3x w) (v3y v - v3y w) (v3z v - v3z w).
Definition Rpp3 (p q : Point3 R) : Vector3 R := mkVector3 (p3x p - p3x q) (p3y p - p3y q) (p3z p - p3z q).
Ltac fv3 := repeat match goal with v : Vector3 R |- _ => destruct v | p : Point3 R |- _ => destruct p | r : Ray3 R |- _ => destruct r end;
  unfold Rmv3, Rsv3, Rpp3, Rdot3, Rat3, dsq3 in *; cbn [v3x v3y v3z p3x p3y p3z r3_origin r3_direction] in *.
Lemma xd2 v w : v2_dot (XV2 v) (XV2 w) = Fin (Rdot2 v w).
Proof. reflexivity. Qed.
Lemma xm2 v k : v2_mul (XV2 v) (Fin k) = XV2 (Rmv2 v k).
Proof. reflexivity. Qed.
Lemma xs2 v w : v2_sub (XV2 v) (XV2 w) = XV2 (Rsv2 v w).
Proof. reflexivity. Qed.
Lemma xpp2 p q : p2_sub (XP2 p) (XP2 q) = XV2 (Rpp2 p q).
Proof. reflexivity. Qed.
Lemma nz2 n : n <> Rzero2 -> Rdot2 n n <> 0.
Proof. intros H E. apply H. now apply Rdot2_zero. Qed.
Lemma xproject2 v n : n <> Rzero2 -> project2 (XV2 v) (XV2 n) = XV2 (Rmv2 n (Rdot2 v n / Rdot2 n n)).
Proof. intros H. unfold project2. rewrite !xd2. cbn [sdiv xreal_ops]. rewrite xdiv_fin by now apply nz2. apply xm2. Qed.
Lemma xreflect2 v n : n <> Rzero2 -> reflect2 (XV2 v) (XV2 n) = XV2 (Rsv2 v (Rmv2 n (2 * (Rdot2 v n / Rdot2 n n)))).
Proof. intros H. unfold reflect2. rewrite !xd2. cbn [sdiv xreal_ops]. rewrite xdiv_fin by now apply nz2. cbn [smul stwo xreal_ops xmul]. rewrite xm2. apply xs2. Qed.
Lemma xfoot2 r p : r2_direction r <> Rzero2 -> foot2 (XR2 r) (XP2 p) = Fin (Rdot2 (Rpp2 p (r2_origin r)) (r2_direction r) / Rdot2 (r2_direction r) (r2_direction r)).
Proof. intros H. unfold foot2. cbn [XR2 r2_origin r2_direction]. rewrite xpp2, !xd2. cbn [sdiv xreal_ops]. now rewrite xdiv_fin by now apply nz2. Qed.
(* dot products of sums *)
Lemma dot_mv2 n k w : Rdot2 (Rmv2 n k) w = k * Rdot2 n w.
Proof. fv2. ring. Qed.
Lemma dot_mvr2 n k w : Rdot2 w (Rmv2 n k) = k * Rdot2 w n.
Proof. fv2. ring. Qed.
Lemma dot_sv2 v u w : Rdot2 (Rsv2 v u) w = Rdot2 v w - Rdot2 u w.
Proof. fv2. ring. Qed.
Lemma dot_svr2 v u w : Rdot2 w (Rsv2 v u) = Rdot2 w v - Rdot2 w u.
Proof. fv2. ring. Qed.
Lemma dot_com2 v w : Rdot2 v w = Rdot2 w v.
Proof. fv2. ring. Qed.
Lemma mv_eq2 n k j : k = j -> Rmv2 n k = Rmv2 n j.
Proof. now intros ->. Qed.
Lemma foot_sq2 r p t f : f * Rdot2 (r2_direction r) (r2_direction r) = Rdot2 (Rpp2 p (r2_origin r)) (r2_direction r) ->
  dsq2 p (Rat2 r t) = dsq2 p (Rat2 r f) + (t - f) ^ 2 * Rdot2 (r2_direction r) (r2_direction r).
Proof.
  intros H. assert (K : dsq2 p (Rat2 r t) - dsq2 p (Rat2 r f) - (t - f) ^ 2 * Rdot2 (r2_direction r) (r2_direction r) =
    2 * (t - f) * (f * Rdot2 (r2_direction r) (r2_direction r) - Rdot2 (Rpp2 p (r2_origin r)) (r2_direction r))) by (clear H; fv2; ring).
  rewrite H in K. replace (2 * (t - f) * (Rdot2 (Rpp2 p (r2_origin r)) (r2_direction r) - Rdot2 (Rpp2 p (r2_origin r)) (r2_direction r))) with 0 in K by ring. lra.
Qed.
Lemma xd3 v w : v3_dot (XV3 v) (XV3 w) = Fin (Rdot3 v w).
Proof. reflexivity. Qed.
Lemma xm3 v k : v3_mul (XV3 v) (Fin k) = XV3 (Rmv3 v k).
Proof. reflexivity. Qed.
Lemma xs3 v w : v3_sub (XV3 v) (XV3 w) = XV3 (Rsv3 v w).
Proof. reflexivity. Qed.
Lemma xpp3 p q : p3_sub (XP3 p) (XP3 q) = XV3 (Rpp3 p q).
Proof. reflexivity. Qed.
Lemma nz3 n : n <> Rzero3 -> Rdot3 n n <> 0.
Proof. intros H E. apply H. now apply Rdot3_zero. Qed.
Lemma xproject3 v n : n <> Rzero3 -> project3 (XV3 v) (XV3 n) = XV3 (Rmv3 n (Rdot3 v n / Rdot3 n n)).
Proof. intros H. unfold project3. rewrite !xd3. cbn [sdiv xreal_ops]. rewrite xdiv_fin by now apply nz3. apply xm3. Qed.
Lemma xreflect3 v n : n <> Rzero3 -> reflect3 (XV3 v) (XV3 n) = XV3 (Rsv3 v (Rmv3 n (2 * (Rdot3 v n / Rdot3 n n)))).
Proof. intros H. unfold reflect3. rewrite !xd3. cbn [sdiv xreal_ops]. rewrite xdiv_fin by now apply nz3. cbn [smul stwo xreal_ops xmul]. rewrite xm3. apply xs3. Qed.
Lemma xfoot3 r p : r3_direction r <> Rzero3 -> foot3 (XR3 r) (XP3 p) = Fin (Rdot3 (Rpp3 p (r3_origin r)) (r3_direction r) / Rdot3 (r3_direction r) (r3_direction r)).
Proof. intros H. unfold foot3. cbn [XR3 r3_origin r3_direction]. rewrite xpp3, !xd3. cbn [sdiv xreal_ops]. now rewrite xdiv_fin by now apply nz3. Qed.
(* dot products of sums *)
Lemma dot_mv3 n k w : Rdot3 (Rmv3 n k) w = k * Rdot3 n w.
Proof. fv3. ring. Qed.
Lemma dot_mvr3 n k w : Rdot3 w (Rmv3 n k) = k * Rdot3 w n.
Proof. fv3. ring. Qed.
Lemma dot_sv3 v u w : Rdot3 (Rsv3 v u) w = Rdot3 v w - Rdot3 u w.
Proof. fv3. ring. Qed.
Lemma dot_svr3 v u w : Rdot3 w (Rsv3 v u) = Rdot3 w v - Rdot3 w u.
Proof. fv3. ring. Qed.
Lemma dot_com3 v w : Rdot3 v w = Rdot3 w v.
Proof. fv3. ring. Qed.
Lemma mv_eq3 n k j : k = j -> Rmv3 n k = Rmv3 n j.
Proof. now intros ->. Qed.
Lemma foot_sq3 r p t f : f * Rdot3 (r3_direction r) (r3_direction r) = Rdot3 (Rpp3 p (r3_origin r)) (r3_direction r) ->
  dsq3 p (Rat3 r t) = dsq3 p (Rat3 r f) + (t - f) ^ 2 * Rdot3 (r3_direction r) (r3_direction r).
Proof.
  intros H. assert (K : dsq3 p (Rat3 r t) - dsq3 p (Rat3 r f) - (t - f) ^ 2 * Rdot3 (r3_direction r) (r3_direction r) =
    2 * (t - f) * (f * Rdot3 (r3_direction r) (r3_direction r) - Rdot3 (Rpp3 p (r3_origin r)) (r3_direction r))) by (clear H; fv3; ring).
  rewrite H in K. replace (2 * (t - f) * (Rdot3 (Rpp3 p (r3_origin r)) (r3_direction r) - Rdot3 (Rpp3 p (r3_origin r)) (r3_direction r))) with 0 in K by ring. lra.
Qed.
Lemma C121_projection_2d_pf : forall (v n : Vector2 R), n <> Rzero2 -> let p := project2 (XV2 v) (XV2 n) in let rest := v2_sub (XV2 v) p in
  v2_dot rest (XV2 n) = Fin 0 /\ project2 p (XV2 n) = p /\
  v2_dot (XV2 v) (XV2 v) = sadd (v2_dot p p) (v2_dot rest rest) /\
  Le (v2_length p) (v2_length (XV2 v)).
Proof.
  intros v n H. cbv zeta. pose proof (nz2 n H) as Z. rewrite !xproject2 by exact H. rewrite xs2, xd2.
  assert (PY : Rdot2 v v = Rdot2 (Rmv2 n (Rdot2 v n / Rdot2 n n)) (Rmv2 n (Rdot2 v n / Rdot2 n n)) + Rdot2 (Rsv2 v (Rmv2 n (Rdot2 v n / Rdot2 n n))) (Rsv2 v (Rmv2 n (Rdot2 v n / Rdot2 n n)))).
  { repeat (rewrite dot_sv2 || rewrite dot_svr2 || rewrite dot_mv2 || rewrite dot_mvr2). rewrite (dot_com2 n v). field. exact Z. }
  split; [|split; [|split]].
  - apply Fin_eq. rewrite dot_sv2, dot_mv2. field. exact Z.
  - apply f_equal. apply mv_eq2. rewrite dot_mv2. field. exact Z.
  - rewrite !xd2. cbn [sadd xreal_ops xadd]. apply Fin_eq. exact PY.
  - rewrite !xv2_length. unfold Le. cbn [sle xreal_ops]. apply xle_fin. rewrite !Rnorm2_dot. apply sqrt_le_1_alt. pose proof (Rdot2_nn (Rsv2 v (Rmv2 n (Rdot2 v n / Rdot2 n n)))). lra.
Qed.
Lemma C121_projection_3d_pf : forall (v n : Vector3 R), n <> Rzero3 -> let p := project3 (XV3 v) (XV3 n) in let rest := v3_sub (XV3 v) p in
  v3_dot rest (XV3 n) = Fin 0 /\ project3 p (XV3 n) = p /\
  v3_dot (XV3 v) (XV3 v) = sadd (v3_dot p p) (v3_dot rest rest) /\
  Le (v3_length p) (v3_length (XV3 v)).
Proof.
  intros v n H. cbv zeta. pose proof (nz3 n H) as Z. rewrite !xproject3 by exact H. rewrite xs3, xd3.
  assert (PY : Rdot3 v v = Rdot3 (Rmv3 n (Rdot3 v n / Rdot3 n n)) (Rmv3 n (Rdot3 v n / Rdot3 n n)) + Rdot3 (Rsv3 v (Rmv3 n (Rdot3 v n / Rdot3 n n))) (Rsv3 v (Rmv3 n (Rdot3 v n / Rdot3 n n)))).
  { repeat (rewrite dot_sv3 || rewrite dot_svr3 || rewrite dot_mv3 || rewrite dot_mvr3). rewrite (dot_com3 n v). field. exact Z. }
  split; [|split; [|split]].
  - apply Fin_eq. rewrite dot_sv3, dot_mv3. field. exact Z.
  - apply f_equal. apply mv_eq3. rewrite dot_mv3. field. exact Z.
  - rewrite !xd3. cbn [sadd xreal_ops xadd]. apply Fin_eq. exact PY.
  - rewrite !xv3_length. unfold Le. cbn [sle xreal_ops]. apply xle_fin. rewrite !Rnorm3_dot. apply sqrt_le_1_alt. pose proof (Rdot3_nn (Rsv3 v (Rmv3 n (Rdot3 v n / Rdot3 n n)))). lra.
Qed.
Lemma C121_reflection_2d_pf : forall (v w n : Vector2 R), n <> Rzero2 ->
  reflect2 (reflect2 (XV2 v) (XV2 n)) (XV2 n) = XV2 v /\
  v2_dot (reflect2 (XV2 v) (XV2 n)) (reflect2 (XV2 w) (XV2 n)) = v2_dot (XV2 v) (XV2 w) /\
  v2_length (reflect2 (XV2 v) (XV2 n)) = v2_length (XV2 v) /\
  reflect2 (XV2 n) (XV2 n) = v2_neg (XV2 n) /\
  (v2_dot (XV2 w) (XV2 n) = Fin 0 -> reflect2 (XV2 w) (XV2 n) = XV2 w).
Proof.
  intros v w n H. pose proof (nz2 n H) as Z. rewrite !xreflect2 by exact H. rewrite !xd2.
  assert (DD : forall a b, Rdot2 (Rsv2 a (Rmv2 n (2 * (Rdot2 a n / Rdot2 n n)))) (Rsv2 b (Rmv2 n (2 * (Rdot2 b n / Rdot2 n n)))) = Rdot2 a b).
  { intros a b. repeat (rewrite dot_sv2 || rewrite dot_svr2 || rewrite dot_mv2 || rewrite dot_mvr2). rewrite (dot_com2 n b). field. exact Z. }
  split; [|split; [|split; [|split]]].
  - assert (E : Rdot2 (Rsv2 v (Rmv2 n (2 * (Rdot2 v n / Rdot2 n n)))) n = - Rdot2 v n) by (rewrite dot_sv2, dot_mv2; field; exact Z).
    rewrite E. replace (- Rdot2 v n / Rdot2 n n) with (- (Rdot2 v n / Rdot2 n n)) by (field; exact Z). apply f_equal. generalize (Rdot2 v n / Rdot2 n n). intros k. clear. fv2. f_equal; ring.
  - apply Fin_eq. apply DD.
  - rewrite !xv2_length. apply Fin_eq. rewrite !Rnorm2_dot. now rewrite DD.
  - replace (Rdot2 n n / Rdot2 n n) with 1 by (field; exact Z). change (v2_neg (XV2 n)) with (XV2 (v2_neg (O := R_ops) n)). apply f_equal. clear. fv2. unfold v2_neg, v2_new. cbn. f_equal; ring.
  - intros E. injection E as E. rewrite E. replace (0 / Rdot2 n n) with 0 by (field; exact Z). apply f_equal. clear. fv2. f_equal; ring.
Qed.
Lemma C121_reflection_3d_pf : forall (v w n : Vector3 R), n <> Rzero3 ->
  reflect3 (reflect3 (XV3 v) (XV3 n)) (XV3 n) = XV3 v /\
  v3_dot (reflect3 (XV3 v) (XV3 n)) (reflect3 (XV3 w) (XV3 n)) = v3_dot (XV3 v) (XV3 w) /\
  v3_length (reflect3 (XV3 v) (XV3 n)) = v3_length (XV3 v) /\
  reflect3 (XV3 n) (XV3 n) = v3_neg (XV3 n) /\
  (v3_dot (XV3 w) (XV3 n) = Fin 0 -> reflect3 (XV3 w) (XV3 n) = XV3 w).
Proof.
  intros v w n H. pose proof (nz3 n H) as Z. rewrite !xreflect3 by exact H. rewrite !xd3.
  assert (DD : forall a b, Rdot3 (Rsv3 a (Rmv3 n (2 * (Rdot3 a n / Rdot3 n n)))) (Rsv3 b (Rmv3 n (2 * (Rdot3 b n / Rdot3 n n)))) = Rdot3 a b).
  { intros a b. repeat (rewrite dot_sv3 || rewrite dot_svr3 || rewrite dot_mv3 || rewrite dot_mvr3). rewrite (dot_com3 n b). field. exact Z. }
  split; [|split; [|split; [|split]]].
  - assert (E : Rdot3 (Rsv3 v (Rmv3 n (2 * (Rdot3 v n / Rdot3 n n)))) n = - Rdot3 v n) by (rewrite dot_sv3, dot_mv3; field; exact Z).
    rewrite E. replace (- Rdot3 v n / Rdot3 n n) with (- (Rdot3 v n / Rdot3 n n)) by (field; exact Z). apply f_equal. generalize (Rdot3 v n / Rdot3 n n). intros k. clear. fv3. f_equal; ring.
  - apply Fin_eq. apply DD.
  - rewrite !xv3_length. apply Fin_eq. rewrite !Rnorm3_dot. now rewrite DD.
  - replace (Rdot3 n n / Rdot3 n n) with 1 by (field; exact Z). change (v3_neg (XV3 n)) with (XV3 (v3_neg (O := R_ops) n)). apply f_equal. clear. fv3. unfold v3_neg, v3_new. cbn. f_equal; ring.
  - intros E. injection E as E. rewrite E. replace (0 / Rdot3 n n) with 0 by (field; exact Z). apply f_equal. clear. fv3. f_equal; ring.
Qed.
Lemma C121_nearest_point_2d_pf : forall (r : Ray2 R) (p : Point2 R), r2_direction r <> Rzero2 ->
  v2_dot (p2_sub (XP2 p) (r2_at (XR2 r) (foot2 (XR2 r) (XP2 p)))) (XV2 (r2_direction r)) = Fin 0 /\
  (forall t : R, Le (p2_distance (XP2 p) (r2_at (XR2 r) (foot2 (XR2 r) (XP2 p)))) (p2_distance (XP2 p) (r2_at (XR2 r) (Fin t))) /\
     (p2_distance (XP2 p) (r2_at (XR2 r) (foot2 (XR2 r) (XP2 p))) = p2_distance (XP2 p) (r2_at (XR2 r) (Fin t)) <-> foot2 (XR2 r) (XP2 p) = Fin t)) /\
  (forall t : R, 0 <= t -> Le (p2_distance (XP2 p) (nearest_on2 (XR2 r) (XP2 p))) (p2_distance (XP2 p) (r2_at (XR2 r) (Fin t)))) /\
  (exists t : R, 0 <= t /\ nearest_on2 (XR2 r) (XP2 p) = r2_at (XR2 r) (Fin t)).
Proof.
  intros r p H. pose proof (nz2 _ H) as Z. assert (P : 0 < Rdot2 (r2_direction r) (r2_direction r)) by (now apply Rdot2_pos). unfold nearest_on2. rewrite !xfoot2 by exact H.
  set (f := Rdot2 (Rpp2 p (r2_origin r)) (r2_direction r) / Rdot2 (r2_direction r) (r2_direction r)).
  assert (F : f * Rdot2 (r2_direction r) (r2_direction r) = Rdot2 (Rpp2 p (r2_origin r)) (r2_direction r)) by (unfold f; field; exact Z).
  pose proof (fun t => foot_sq2 r p t f F) as Q. rewrite !xr2_at.
  assert (M : forall t, 0 <= (t - f) ^ 2 * Rdot2 (r2_direction r) (r2_direction r)) by (intros t; apply Rmult_le_pos; [apply pow2_ge_0 | lra]).
  split; [|split; [|split]].
  - rewrite xpp2, xd2. apply Fin_eq. assert (K : Rdot2 (Rpp2 p (Rat2 r f)) (r2_direction r) = Rdot2 (Rpp2 p (r2_origin r)) (r2_direction r) - f * Rdot2 (r2_direction r) (r2_direction r)) by (clear; fv2; ring). rewrite K, F. ring.
  - intros t. rewrite !xr2_at, !xdist2. split.
    + unfold Le. cbn [sle xreal_ops]. apply xle_fin. apply sqrt_le_1_alt. rewrite (Q t). specialize (M t). lra.
    + split; [|intros E; injection E as ->; reflexivity]. intros E. injection E as E. apply sqrt_inj in E; [|apply dsq2_nn | apply dsq2_nn]. rewrite (Q t) in E.
      assert (E' : (t - f) ^ 2 * Rdot2 (r2_direction r) (r2_direction r) = 0) by lra. apply Rmult_integral in E'. destruct E' as [E'|E']; [|lra]. apply Fin_eq. nra.
  - intros t Ht. rewrite !xr2_at. destruct (sle szero (Fin f)) eqn:S; cbn [sle szero xreal_ops] in S.
    + rewrite !xdist2. unfold Le. cbn [sle xreal_ops]. apply xle_fin. apply sqrt_le_1_alt. rewrite (Q t). specialize (M t). lra.
    + assert (N : ~ 0 <= f) by (intros K; apply xle_fin in K; rewrite K in S; discriminate). change (r2_origin (XR2 r)) with (XP2 (r2_origin r)).
      rewrite !xdist2. unfold Le. cbn [sle xreal_ops]. apply xle_fin. apply sqrt_le_1_alt. rewrite (Q t). pose proof (Q 0) as Q0.
      replace (Rat2 r 0) with (r2_origin r) in Q0 by (destruct r as [[] []]; unfold Rat2; cbn; f_equal; ring). rewrite Q0. apply Rplus_le_compat_l. apply Rmult_le_compat_r; [lra|]. nra.
  - destruct (sle szero (Fin f)) eqn:S; cbn [sle szero xreal_ops] in S.
    + exists f. split; [now apply xle_fin in S|]. now rewrite xr2_at.
    + exists 0. split; [lra|]. rewrite xr2_at. change (r2_origin (XR2 r)) with (XP2 (r2_origin r)). apply f_equal. destruct r as [[] []]; unfold Rat2; cbn; f_equal; ring.
Qed.
Lemma C121_nearest_point_3d_pf : forall (r : Ray3 R) (p : Point3 R), r3_direction r <> Rzero3 ->
  v3_dot (p3_sub (XP3 p) (r3_at (XR3 r) (foot3 (XR3 r) (XP3 p)))) (XV3 (r3_direction r)) = Fin 0 /\
  (forall t : R, Le (p3_distance (XP3 p) (r3_at (XR3 r) (foot3 (XR3 r) (XP3 p)))) (p3_distance (XP3 p) (r3_at (XR3 r) (Fin t))) /\
     (p3_distance (XP3 p) (r3_at (XR3 r) (foot3 (XR3 r) (XP3 p))) = p3_distance (XP3 p) (r3_at (XR3 r) (Fin t)) <-> foot3 (XR3 r) (XP3 p) = Fin t)) /\
  (forall t : R, 0 <= t -> Le (p3_distance (XP3 p) (nearest_on3 (XR3 r) (XP3 p))) (p3_distance (XP3 p) (r3_at (XR3 r) (Fin t)))) /\
  (exists t : R, 0 <= t /\ nearest_on3 (XR3 r) (XP3 p) = r3_at (XR3 r) (Fin t)).
Proof.
  intros r p H. pose proof (nz3 _ H) as Z. assert (P : 0 < Rdot3 (r3_direction r) (r3_direction r)) by (now apply Rdot3_pos). unfold nearest_on3. rewrite !xfoot3 by exact H.
  set (f := Rdot3 (Rpp3 p (r3_origin r)) (r3_direction r) / Rdot3 (r3_direction r) (r3_direction r)).
  assert (F : f * Rdot3 (r3_direction r) (r3_direction r) = Rdot3 (Rpp3 p (r3_origin r)) (r3_direction r)) by (unfold f; field; exact Z).
  pose proof (fun t => foot_sq3 r p t f F) as Q. rewrite !xr3_at.
  assert (M : forall t, 0 <= (t - f) ^ 2 * Rdot3 (r3_direction r) (r3_direction r)) by (intros t; apply Rmult_le_pos; [apply pow2_ge_0 | lra]).
  split; [|split; [|split]].
  - rewrite xpp3, xd3. apply Fin_eq. assert (K : Rdot3 (Rpp3 p (Rat3 r f)) (r3_direction r) = Rdot3 (Rpp3 p (r3_origin r)) (r3_direction r) - f * Rdot3 (r3_direction r) (r3_direction r)) by (clear; fv3; ring). rewrite K, F. ring.
  - intros t. rewrite !xr3_at, !xdist3. split.
    + unfold Le. cbn [sle xreal_ops]. apply xle_fin. apply sqrt_le_1_alt. rewrite (Q t). specialize (M t). lra.
    + split; [|intros E; injection E as ->; reflexivity]. intros E. injection E as E. apply sqrt_inj in E; [|apply dsq3_nn | apply dsq3_nn]. rewrite (Q t) in E.
      assert (E' : (t - f) ^ 2 * Rdot3 (r3_direction r) (r3_direction r) = 0) by lra. apply Rmult_integral in E'. destruct E' as [E'|E']; [|lra]. apply Fin_eq. nra.
  - intros t Ht. rewrite !xr3_at. destruct (sle szero (Fin f)) eqn:S; cbn [sle szero xreal_ops] in S.
    + rewrite !xdist3. unfold Le. cbn [sle xreal_ops]. apply xle_fin. apply sqrt_le_1_alt. rewrite (Q t). specialize (M t). lra.
    + assert (N : ~ 0 <= f) by (intros K; apply xle_fin in K; rewrite K in S; discriminate). change (r3_origin (XR3 r)) with (XP3 (r3_origin r)).
      rewrite !xdist3. unfold Le. cbn [sle xreal_ops]. apply xle_fin. apply sqrt_le_1_alt. rewrite (Q t). pose proof (Q 0) as Q0.
      replace (Rat3 r 0) with (r3_origin r) in Q0 by (destruct r as [[] []]; unfold Rat3; cbn; f_equal; ring). rewrite Q0. apply Rplus_le_compat_l. apply Rmult_le_compat_r; [lra|]. nra.
  - destruct (sle szero (Fin f)) eqn:S; cbn [sle szero xreal_ops] in S.
    + exists f. split; [now apply xle_fin in S|]. now rewrite xr3_at.
    + exists 0. split; [lra|]. rewrite xr3_at. change (r3_origin (XR3 r)) with (XP3 (r3_origin r)). apply f_equal. destruct r as [[] []]; unfold Rat3; cbn; f_equal; ring.
Qed.
Lemma C121_distance_to_line_3d_pf : forall (r : Ray3 R) (p : Point3 R), r3_direction r <> Rzero3 ->
  smul (p3_distance (XP3 p) (r3_at (XR3 r) (foot3 (XR3 r) (XP3 p)))) (v3_length (XV3 (r3_direction r))) =
  v3_length (v3_cross (p3_sub (XP3 p) (XP3 (r3_origin r))) (XV3 (r3_direction r))).
Proof.
  intros r p H. pose proof (nz3 _ H) as Z. rewrite xfoot3 by exact H. rewrite xr3_at, xdist3, xpp3, xv3_cross, !xv3_length. cbn [smul xreal_ops xmul]. apply Fin_eq. rewrite !Rnorm3_dot. rewrite <- sqrt_mult_alt by apply dsq3_nn. f_equal.
  set (f := Rdot3 (Rpp3 p (r3_origin r)) (r3_direction r) / Rdot3 (r3_direction r) (r3_direction r)).
  assert (F : f * Rdot3 (r3_direction r) (r3_direction r) = Rdot3 (Rpp3 p (r3_origin r)) (r3_direction r)) by (unfold f; field; exact Z).
  assert (K1 : dsq3 p (Rat3 r f) = Rdot3 (Rpp3 p (r3_origin r)) (Rpp3 p (r3_origin r)) - 2 * f * Rdot3 (Rpp3 p (r3_origin r)) (r3_direction r) + f * (f * Rdot3 (r3_direction r) (r3_direction r))) by (clearbody f; clear; fv3; ring).
  rewrite K1, F. assert (K2 : forall a d : Vector3 R, Rdot3 (Rcross a d) (Rcross a d) = Rdot3 a a * Rdot3 d d - Rdot3 a d * Rdot3 a d) by (clear; intros; unfold Rcross; fv3; ring).
  rewrite K2. set (A := Rdot3 (Rpp3 p (r3_origin r)) (Rpp3 p (r3_origin r))) in *. set (B := Rdot3 (Rpp3 p (r3_origin r)) (r3_direction r)) in *. set (C := Rdot3 (r3_direction r) (r3_direction r)) in *.
  replace ((A - 2 * f * B + f * B) * C) with (A * C - (f * C) * B) by ring. rewrite F. ring.
Qed.
Definition rfn2 : Vector2 R := mkVector2 0 2.
Definition rfv2 : Vector2 R := mkVector2 1 3.
Definition rfr2 : Ray2 R := mkRay2 (mkPoint2 0 0) (mkVector2 2 0).
Definition rfp2 : Point2 R := mkPoint2 4 5.
Definition rfm2 : Vector2 R := mkVector2 1 (-3).
Definition rfn3 : Vector3 R := mkVector3 0 2 0.
Definition rfv3 : Vector3 R := mkVector3 1 3 0.
Definition rfr3 : Ray3 R := mkRay3 (mkPoint3 0 0 0) (mkVector3 2 0 0).
Definition rfp3 : Point3 R := mkPoint3 4 5 0.
Definition rfm3 : Vector3 R := mkVector3 1 (-3) 0.
Lemma rf_facts2 : rfn2 <> Rzero2 /\ r2_direction rfr2 <> Rzero2 /\ reflect2 (XV2 rfv2) (XV2 rfn2) = XV2 rfm2 /\ foot2 (XR2 rfr2) (XP2 rfp2) = Fin 2.
Proof.
  assert (A : rfn2 <> Rzero2) by (unfold rfn2, Rzero2; intros E; injection E; lra). assert (B : r2_direction rfr2 <> Rzero2) by (unfold rfr2, Rzero2; cbn; intros E; injection E; lra).
  split; [exact A|]. split; [exact B|]. rewrite xreflect2 by exact A. rewrite xfoot2 by exact B. split.
  - apply f_equal. unfold rfv2, rfn2, rfm2. unfold Rsv2, Rmv2, Rdot2. cbn. f_equal; field.
  - apply Fin_eq. unfold rfr2, rfp2. unfold Rpp2, Rdot2. cbn. field.
Qed.
Lemma rf_facts3 : rfn3 <> Rzero3 /\ r3_direction rfr3 <> Rzero3 /\ reflect3 (XV3 rfv3) (XV3 rfn3) = XV3 rfm3 /\ foot3 (XR3 rfr3) (XP3 rfp3) = Fin 2.
Proof.
  assert (A : rfn3 <> Rzero3) by (unfold rfn3, Rzero3; intros E; injection E; lra). assert (B : r3_direction rfr3 <> Rzero3) by (unfold rfr3, Rzero3; cbn; intros E; injection E; lra).
  split; [exact A|]. split; [exact B|]. rewrite xreflect3 by exact A. rewrite xfoot3 by exact B. split.
  - apply f_equal. unfold rfv3, rfn3, rfm3. unfold Rsv3, Rmv3, Rdot3. cbn. f_equal; field.
  - apply Fin_eq. unfold rfr3, rfp3. unfold Rpp3, Rdot3. cbn. field.
Qed.
