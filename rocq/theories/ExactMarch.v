(** Proofs: the part of a ray inside a box (C120). *)
From Coq Require Import Bool NArith ZArith Reals List Lra Lia Psatz.
From Verif Require Import Scalar Types Vector2 Vector3 Point2 Point3 Ray BoundingBox2 BoundingBox3 Transform2 Transform3
  XReal OrdLaws Arith SpecOrder SpecReal SpecBox SpecHull XTac ExactBase ExactVec ExactBox ExactTransRay ExactProj ExactCircum.
Import ListNotations.
Local Open Scope R_scope.
Lemma at_dsq2 r t u : dsq2 (Rat2 r t) (Rat2 r u) = (u - t) ^ 2 * (v2x (r2_direction r) ^ 2 + v2y (r2_direction r) ^ 2).
Proof. unfold dsq2, Rat2. cbn [p2x p2y]. ring. Qed.
Lemma two_in2 b p q : Rin2 p b -> Rin2 q b -> dsq2 p q <= (p2x (bb2_max b) - p2x (bb2_min b)) ^ 2 + (p2y (bb2_max b) - p2y (bb2_min b)) ^ 2.
Proof. unfold Rin2, dsq2. intros [X Y] [X' Y']. repeat apply Rplus_le_compat; nra. Qed.
Lemma at_dsq3 r t u : dsq3 (Rat3 r t) (Rat3 r u) = (u - t) ^ 2 * (v3x (r3_direction r) ^ 2 + v3y (r3_direction r) ^ 2 + v3z (r3_direction r) ^ 2).
Proof. unfold dsq3, Rat3. cbn [p3x p3y p3z]. ring. Qed.
Lemma two_in3 b p q : Rin3 p b -> Rin3 q b -> dsq3 p q <= (p3x (bb3_max b) - p3x (bb3_min b)) ^ 2 + (p3y (bb3_max b) - p3y (bb3_min b)) ^ 2 + (p3z (bb3_max b) - p3z (bb3_min b)) ^ 2.
Proof. unfold Rin3, dsq3. intros (X & Y & Z) (X' & Y' & Z'). repeat apply Rplus_le_compat; nra. Qed.
Lemma at_dist2 r t u : t <= u -> p2_distance (XP2 (Rat2 r t)) (XP2 (Rat2 r u)) = Fin ((u - t) * Rnorm2 (r2_direction r)).
Proof.
  intros H. rewrite xdist2, at_dsq2. apply Fin_eq. rewrite sqrt_mult_alt by apply pow2_ge_0. rewrite sqrt_pow2 by lra. reflexivity.
Qed.
Lemma xdiag2 b : exists s, v2_length (bb2_diagonal (XB2 b)) = Fin s /\ forall p q, Rin2 p b -> Rin2 q b -> sqrt (dsq2 p q) <= s.
Proof.
  eexists. split; [unfold bb2_diagonal; cbn [XB2 bb2_min bb2_max]; rewrite xp2_sub, xv2_length; reflexivity|].
  intros p q I J. unfold Rnorm2. apply sqrt_le_1_alt. cbn. pose proof (two_in2 b p q I J) as K. cbn in K. exact K.
Qed.
Lemma at_zero2 r : Rat2 r 0 = r2_origin r.
Proof. destruct r as [[] []]. unfold Rat2. cbn. f_equal; ring. Qed.
Lemma at_dist3 r t u : t <= u -> p3_distance (XP3 (Rat3 r t)) (XP3 (Rat3 r u)) = Fin ((u - t) * Rnorm3 (r3_direction r)).
Proof.
  intros H. rewrite xdist3, at_dsq3. apply Fin_eq. rewrite sqrt_mult_alt by apply pow2_ge_0. rewrite sqrt_pow2 by lra. reflexivity.
Qed.
Lemma xdiag3 b : exists s, v3_length (bb3_diagonal (XB3 b)) = Fin s /\ forall p q, Rin3 p b -> Rin3 q b -> sqrt (dsq3 p q) <= s.
Proof.
  eexists. split; [unfold bb3_diagonal; cbn [XB3 bb3_min bb3_max]; rewrite xp3_sub, xv3_length; reflexivity|].
  intros p q I J. unfold Rnorm3. apply sqrt_le_1_alt. cbn. pose proof (two_in3 b p q I J) as K. cbn in K. exact K.
Qed.
Lemma at_zero3 r : Rat3 r 0 = r3_origin r.
Proof. destruct r as [[] []]. unfold Rat3. cbn. f_equal; ring. Qed.
Lemma C120_chord_2d_pf : forall (b : BoundingBox2 R) (r : Ray2 R), Rordered2 b -> r2_direction r <> Rzero2 -> off_faces2 b r ->
  match bb2_intersect_ray (XB2 b) (XR2 r) with
  | None => bb2_is_inside (XB2 b) (XP2 (r2_origin r)) = false
  | Some (s, e) => exists s' e' : R, s = Fin s' /\ e = Fin e' /\ 0 <= s' <= e' /\
      (* length of the chord *)
      p2_distance (r2_at (XR2 r) s) (r2_at (XR2 r) e) = smul (Fin (e' - s')) (v2_length (XV2 (r2_direction r))) /\
      Le (p2_distance (r2_at (XR2 r) s) (r2_at (XR2 r) e)) (v2_length (bb2_diagonal (XB2 b))) /\
      (* the way to the box *)
      p2_distance (XP2 (r2_origin r)) (r2_at (XR2 r) s) = smul s (v2_length (XV2 (r2_direction r))) /\
      (forall t : R, 0 <= t -> bb2_is_inside (XB2 b) (r2_at (XR2 r) (Fin t)) = true ->
         Le (p2_distance (XP2 (r2_origin r)) (r2_at (XR2 r) s)) (p2_distance (XP2 (r2_origin r)) (r2_at (XR2 r) (Fin t))) /\
         Le (p2_distance (XP2 (r2_origin r)) (r2_at (XR2 r) (Fin t))) (p2_distance (XP2 (r2_origin r)) (r2_at (XR2 r) e))) /\
      (s = Fin 0 <-> bb2_is_inside (XB2 b) (XP2 (r2_origin r)) = true)
  end.
Proof.
  intros b r O D F. pose proof (C16_ray_intersection_2d_pf b r O D F) as G.
  assert (OR : forall t, 0 <= t -> p2_distance (XP2 (r2_origin r)) (XP2 (Rat2 r t)) = Fin (t * Rnorm2 (r2_direction r))).
  { intros t Ht. rewrite <- (at_zero2 r) at 1. rewrite at_dist2 by exact Ht. apply Fin_eq. ring. }
  assert (Z : XP2 (r2_origin r) = r2_at (XR2 r) (Fin 0)) by (now rewrite xr2_at, at_zero2).
  destruct (bb2_intersect_ray (XB2 b) (XR2 r)) as [[s e]|].
  - destruct G as (s' & e' & -> & -> & L & G). exists s', e'. split; [reflexivity|]. split; [reflexivity|]. split; [exact L|].
    assert (NN : 0 <= Rnorm2 (r2_direction r)) by apply Rnorm2_nn.
    assert (I1 : Rin2 (Rat2 r s') b) by (apply xle_iff2_inside; rewrite <- xr2_at; apply G; lra).
    assert (I2 : Rin2 (Rat2 r e') b) by (apply xle_iff2_inside; rewrite <- xr2_at; apply G; lra).
    rewrite !xr2_at. rewrite xv2_length. split; [rewrite at_dist2 by lra; reflexivity|].
    split. { destruct (xdiag2 b) as (k & -> & K). rewrite xdist2. unfold Le. cbn [sle xreal_ops]. apply xle_fin. now apply K. }
    split; [rewrite OR by lra; reflexivity|]. split.
    + intros t Ht I. apply G in I; [|exact Ht]. rewrite xr2_at, !OR by lra. unfold Le. cbn [sle xreal_ops]. rewrite !xle_fin. split; apply Rmult_le_compat_r; lra.
    + rewrite Z. rewrite G by lra. split; [intros E; injection E as ->; lra | intros H; apply Fin_eq; lra].
  - rewrite Z. apply G. lra.
Qed.
Lemma C120_chord_3d_pf : forall (b : BoundingBox3 R) (r : Ray3 R), Rordered3 b -> r3_direction r <> Rzero3 -> off_faces3 b r ->
  match bb3_intersect_ray (XB3 b) (XR3 r) with
  | None => bb3_is_inside (XB3 b) (XP3 (r3_origin r)) = false
  | Some (s, e) => exists s' e' : R, s = Fin s' /\ e = Fin e' /\ 0 <= s' <= e' /\
      (* length of the chord *)
      p3_distance (r3_at (XR3 r) s) (r3_at (XR3 r) e) = smul (Fin (e' - s')) (v3_length (XV3 (r3_direction r))) /\
      Le (p3_distance (r3_at (XR3 r) s) (r3_at (XR3 r) e)) (v3_length (bb3_diagonal (XB3 b))) /\
      (* the way to the box *)
      p3_distance (XP3 (r3_origin r)) (r3_at (XR3 r) s) = smul s (v3_length (XV3 (r3_direction r))) /\
      (forall t : R, 0 <= t -> bb3_is_inside (XB3 b) (r3_at (XR3 r) (Fin t)) = true ->
         Le (p3_distance (XP3 (r3_origin r)) (r3_at (XR3 r) s)) (p3_distance (XP3 (r3_origin r)) (r3_at (XR3 r) (Fin t))) /\
         Le (p3_distance (XP3 (r3_origin r)) (r3_at (XR3 r) (Fin t))) (p3_distance (XP3 (r3_origin r)) (r3_at (XR3 r) e))) /\
      (s = Fin 0 <-> bb3_is_inside (XB3 b) (XP3 (r3_origin r)) = true)
  end.
Proof.
  intros b r O D F. pose proof (C16_ray_intersection_3d_pf b r O D F) as G.
  assert (OR : forall t, 0 <= t -> p3_distance (XP3 (r3_origin r)) (XP3 (Rat3 r t)) = Fin (t * Rnorm3 (r3_direction r))).
  { intros t Ht. rewrite <- (at_zero3 r) at 1. rewrite at_dist3 by exact Ht. apply Fin_eq. ring. }
  assert (Z : XP3 (r3_origin r) = r3_at (XR3 r) (Fin 0)) by (now rewrite xr3_at, at_zero3).
  destruct (bb3_intersect_ray (XB3 b) (XR3 r)) as [[s e]|].
  - destruct G as (s' & e' & -> & -> & L & G). exists s', e'. split; [reflexivity|]. split; [reflexivity|]. split; [exact L|].
    assert (NN : 0 <= Rnorm3 (r3_direction r)) by apply Rnorm3_nn.
    assert (I1 : Rin3 (Rat3 r s') b) by (apply xle_iff3_inside; rewrite <- xr3_at; apply G; lra).
    assert (I2 : Rin3 (Rat3 r e') b) by (apply xle_iff3_inside; rewrite <- xr3_at; apply G; lra).
    rewrite !xr3_at. rewrite xv3_length. split; [rewrite at_dist3 by lra; reflexivity|].
    split. { destruct (xdiag3 b) as (k & -> & K). rewrite xdist3. unfold Le. cbn [sle xreal_ops]. apply xle_fin. now apply K. }
    split; [rewrite OR by lra; reflexivity|]. split.
    + intros t Ht I. apply G in I; [|exact Ht]. rewrite xr3_at, !OR by lra. unfold Le. cbn [sle xreal_ops]. rewrite !xle_fin. split; apply Rmult_le_compat_r; lra.
    + rewrite Z. rewrite G by lra. split; [intros E; injection E as ->; lra | intros H; apply Fin_eq; lra].
  - rewrite Z. apply G. lra.
Qed.
Lemma C120_march_2d_pf : forall (b : BoundingBox2 R) (r : Ray2 R) (s e : R) (n k : nat), Rordered2 b -> r2_direction r <> Rzero2 -> off_faces2 b r ->
  bb2_intersect_ray (XB2 b) (XR2 r) = Some (Fin s, Fin e) -> (0 < n)%nat -> (k <= n)%nat ->
  let at_step := (fun j : nat => r2_at (XR2 r) (Fin (s + INR j * ((e - s) / INR n)))) in
  bb2_is_inside (XB2 b) (at_step k) = true /\ at_step 0%nat = r2_at (XR2 r) (Fin s) /\ at_step n = r2_at (XR2 r) (Fin e) /\
  Le (smul (Fin (INR n)) (p2_distance (at_step k) (at_step (S k)))) (v2_length (bb2_diagonal (XB2 b))).
Proof.
  intros b r s e n k O D F E Hn Hk. cbv zeta. pose proof (C16_ray_intersection_2d_pf b r O D F) as G. rewrite E in G.
  destruct G as (s' & e' & E1 & E2 & L & G). injection E1 as <-. injection E2 as <-.
  assert (N : 0 < INR n) by (now apply lt_0_INR). assert (K : 0 <= INR k <= INR n) by (split; [apply pos_INR | now apply le_INR]).
  assert (H0 : 0 <= (e - s) / INR n) by (apply Rmult_le_pos; [lra | left; now apply Rinv_0_lt_compat]).
  assert (HN : INR n * ((e - s) / INR n) = e - s) by (field; lra).
  split; [apply G; nra|]. split; [f_equal; apply Fin_eq; cbn; ring|]. split; [f_equal; apply Fin_eq; lra|].
  assert (I1 : Rin2 (Rat2 r s) b) by (apply xle_iff2_inside; rewrite <- xr2_at; apply G; lra).
  assert (I2 : Rin2 (Rat2 r e) b) by (apply xle_iff2_inside; rewrite <- xr2_at; apply G; lra).
  rewrite !xr2_at. rewrite at_dist2 by (rewrite S_INR; nra). destruct (xdiag2 b) as (q & -> & Q). specialize (Q _ _ I1 I2).
  pose proof (at_dist2 r s e ltac:(lra)) as A. rewrite xdist2 in A. injection A as A. rewrite A in Q.
  cbn [smul xreal_ops xmul]. unfold Le. cbn [sle xreal_ops]. apply xle_fin. rewrite S_INR.
  replace (INR n * ((s + (INR k + 1) * ((e - s) / INR n) - (s + INR k * ((e - s) / INR n))) * Rnorm2 (r2_direction r))) with (INR n * ((e - s) / INR n) * Rnorm2 (r2_direction r)) by ring.
  rewrite HN. exact Q.
Qed.
Lemma C120_march_3d_pf : forall (b : BoundingBox3 R) (r : Ray3 R) (s e : R) (n k : nat), Rordered3 b -> r3_direction r <> Rzero3 -> off_faces3 b r ->
  bb3_intersect_ray (XB3 b) (XR3 r) = Some (Fin s, Fin e) -> (0 < n)%nat -> (k <= n)%nat ->
  let at_step := (fun j : nat => r3_at (XR3 r) (Fin (s + INR j * ((e - s) / INR n)))) in
  bb3_is_inside (XB3 b) (at_step k) = true /\ at_step 0%nat = r3_at (XR3 r) (Fin s) /\ at_step n = r3_at (XR3 r) (Fin e) /\
  Le (smul (Fin (INR n)) (p3_distance (at_step k) (at_step (S k)))) (v3_length (bb3_diagonal (XB3 b))).
Proof.
  intros b r s e n k O D F E Hn Hk. cbv zeta. pose proof (C16_ray_intersection_3d_pf b r O D F) as G. rewrite E in G.
  destruct G as (s' & e' & E1 & E2 & L & G). injection E1 as <-. injection E2 as <-.
  assert (N : 0 < INR n) by (now apply lt_0_INR). assert (K : 0 <= INR k <= INR n) by (split; [apply pos_INR | now apply le_INR]).
  assert (H0 : 0 <= (e - s) / INR n) by (apply Rmult_le_pos; [lra | left; now apply Rinv_0_lt_compat]).
  assert (HN : INR n * ((e - s) / INR n) = e - s) by (field; lra).
  split; [apply G; nra|]. split; [f_equal; apply Fin_eq; cbn; ring|]. split; [f_equal; apply Fin_eq; lra|].
  assert (I1 : Rin3 (Rat3 r s) b) by (apply xle_iff3_inside; rewrite <- xr3_at; apply G; lra).
  assert (I2 : Rin3 (Rat3 r e) b) by (apply xle_iff3_inside; rewrite <- xr3_at; apply G; lra).
  rewrite !xr3_at. rewrite at_dist3 by (rewrite S_INR; nra). destruct (xdiag3 b) as (q & -> & Q). specialize (Q _ _ I1 I2).
  pose proof (at_dist3 r s e ltac:(lra)) as A. rewrite xdist3 in A. injection A as A. rewrite A in Q.
  cbn [smul xreal_ops xmul]. unfold Le. cbn [sle xreal_ops]. apply xle_fin. rewrite S_INR.
  replace (INR n * ((s + (INR k + 1) * ((e - s) / INR n) - (s + INR k * ((e - s) / INR n))) * Rnorm3 (r3_direction r))) with (INR n * ((e - s) / INR n) * Rnorm3 (r3_direction r)) by ring.
  rewrite HN. exact Q.
Qed.
Definition mb2 : BoundingBox2 R := mkBB2 (mkPoint2 1 0) (mkPoint2 3 2).
Definition mr2 : Ray2 R := mkRay2 (mkPoint2 0 1) (mkVector2 1 0).
Definition mb3 : BoundingBox3 R := mkBB3 (mkPoint3 1 0 0) (mkPoint3 3 2 2).
Definition mr3 : Ray3 R := mkRay3 (mkPoint3 0 1 1) (mkVector3 1 0 0).
