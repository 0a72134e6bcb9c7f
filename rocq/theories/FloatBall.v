(** Proofs: balls and boxes, range search (C108, C109). *)
From Coq Require Import Bool NArith ZArith Reals List Lra Lia.
From Flocq Require Import Core.Zaux Core.Raux.
From Verif Require Import Scalar Types Vector2 Vector3 Point2 Point3 Ray BoundingBox2 BoundingBox3 Float
  XReal OrdLaws Arith SpecOrder SpecFloat SpecErr SpecReal SpecNear SpecHull SpecBall OrderProofs OrderBox FloatX XArith FloatLaws SlabBase FloatSym ExVals ErrBase ExactBase ExactVec FloatTrans FloatMono FloatClip FloatAxis FloatNear FloatHull FloatOct.
Import ListNotations.
Local Open Scope R_scope.
Lemma filter_all {T} (f : T -> bool) l : (forall x, In x l -> f x = true) -> filter f l = l.
Proof. induction l as [|x l IH]; intros H; [reflexivity|]. cbn. rewrite (H x (or_introl eq_refl)), IH; [reflexivity | intros y I; apply H; now right]. Qed.
Lemma filter_none {T} (f : T -> bool) l : (forall x, In x l -> f x = false) -> filter f l = [].
Proof. induction l as [|x l IH]; intros H; [reflexivity|]. cbn. rewrite (H x (or_introl eq_refl)), IH; [reflexivity | intros y I; apply H; now right]. Qed.
Lemma nearest2_ok {A : arith} (b : BoundingBox2 (num A)) (p q : Point2 (num A)) : Finite2 p -> In2 q b -> Le (p2_distance p (clamp2 b p)) (p2_distance p q).
Proof. intros F I. apply (C103_clamp_is_nearest_2d_pf A b p q F). now apply bb2_is_inside_iff. Qed.
Lemma corners2_bound {A : arith} (prof : profile) (b : BoundingBox2 (num A)) (p q : Point2 (num A)) : Finite2 p -> In2 q b -> exists k, In k (corners2 prof b) /\ Le (p2_distance p q) (p2_distance p k).
Proof.
  intros F I. apply bb2_is_inside_iff in I. destruct (C70_farthest_point_is_a_corner_2d_pf A prof b p q F I) as (i & c & Bi & Ec & K & _). exists c. split; [|exact K].
  destruct (idx2_all i Bi) as [f ->]. rewrite corner_cc2 in Ec. injection Ec as <-. apply cc2_corners.
Qed.
Lemma corners2_inside {A : arith} (prof : profile) (b : BoundingBox2 (num A)) k : Ordered2 b -> In k (corners2 prof b) -> In2 k b.
Proof.
  intros O I. pose proof (num_OrdLaws A) as L. destruct (corners2_cc prof b k I) as [f ->].
  assert (E : forall d, coord2 (cc2 b f) d = pk (f d) (coord2 (bb2_min b) d) (coord2 (bb2_max b) d)) by (intros d; destruct d; reflexivity).
  split; intros d; rewrite E; pose proof (Le_nan L _ _ (O d)) as [N1 N2]; destruct (f d); cbn [pk]; try apply O; now apply (Le_refl L).
Qed.
Lemma nearest3_ok {A : arith} (b : BoundingBox3 (num A)) (p q : Point3 (num A)) : Finite3 p -> In3 q b -> Le (p3_distance p (clamp3 b p)) (p3_distance p q).
Proof. intros F I. apply (C103_clamp_is_nearest_3d_pf A b p q F). now apply bb3_is_inside_iff. Qed.
Lemma corners3_bound {A : arith} (prof : profile) (b : BoundingBox3 (num A)) (p q : Point3 (num A)) : Finite3 p -> In3 q b -> exists k, In k (corners3 prof b) /\ Le (p3_distance p q) (p3_distance p k).
Proof.
  intros F I. apply bb3_is_inside_iff in I. destruct (C70_farthest_point_is_a_corner_3d_pf A prof b p q F I) as (i & c & Bi & Ec & K & _). exists c. split; [|exact K].
  destruct (idx3_all i Bi) as [f ->]. rewrite corner_cc3 in Ec. injection Ec as <-. apply cc3_corners.
Qed.
Lemma corners3_inside {A : arith} (prof : profile) (b : BoundingBox3 (num A)) k : Ordered3 b -> In k (corners3 prof b) -> In3 k b.
Proof.
  intros O I. pose proof (num_OrdLaws A) as L. destruct (corners3_cc prof b k I) as [f ->].
  assert (E : forall d, coord3 (cc3 b f) d = pk (f d) (coord3 (bb3_min b) d) (coord3 (bb3_max b) d)) by (intros d; destruct d; reflexivity).
  split; intros d; rewrite E; pose proof (Le_nan L _ _ (O d)) as [N1 N2]; destruct (f d); cbn [pk]; try apply O; now apply (Le_refl L).
Qed.
Lemma C108_ball_contains_box_2d_pf : forall (A : arith) (prof : profile) (b : BoundingBox2 (num A)) (c : Point2 (num A)) (r : num A), Ordered2 b -> Finite2 c ->
  ((forall k, In k (corners2 prof b) -> Le (p2_distance c k) r) <-> (forall p, bb2_is_inside b p = true -> Le (p2_distance c p) r)).
Proof.
  intros A prof b c r O F. pose proof (num_OrdLaws A) as L. split.
  - intros H p I. apply bb2_is_inside_iff in I. destruct (corners2_bound prof b c p F I) as (k & Ik & K). exact (Le_trans L _ _ _ K (H k Ik)).
  - intros H k Ik. apply H. apply bb2_is_inside_iff. exact (corners2_inside prof b k O Ik).
Qed.
Lemma C108_ball_contains_box_3d_pf : forall (A : arith) (prof : profile) (b : BoundingBox3 (num A)) (c : Point3 (num A)) (r : num A), Ordered3 b -> Finite3 c ->
  ((forall k, In k (corners3 prof b) -> Le (p3_distance c k) r) <-> (forall p, bb3_is_inside b p = true -> Le (p3_distance c p) r)).
Proof.
  intros A prof b c r O F. pose proof (num_OrdLaws A) as L. split.
  - intros H p I. apply bb3_is_inside_iff in I. destruct (corners3_bound prof b c p F I) as (k & Ik & K). exact (Le_trans L _ _ _ K (H k Ik)).
  - intros H k Ik. apply H. apply bb3_is_inside_iff. exact (corners3_inside prof b k O Ik).
Qed.
Lemma C108_ball_meets_box_2d_pf : forall (A : arith) (b : BoundingBox2 (num A)) (c : Point2 (num A)) (r : num A), Ordered2 b -> Finite2 c ->
  (Le (p2_distance c (clamp2 b c)) r <-> exists p, bb2_is_inside b p = true /\ Le (p2_distance c p) r).
Proof.
  intros A b c r O F. pose proof (num_OrdLaws A) as L. split.
  - intros H. exists (clamp2 b c). split; [now apply C103_clamp_inside_2d_pf | exact H].
  - intros (p & I & H). apply bb2_is_inside_iff in I. exact (Le_trans L _ _ _ (nearest2_ok b c p F I) H).
Qed.
Lemma C108_ball_meets_box_3d_pf : forall (A : arith) (b : BoundingBox3 (num A)) (c : Point3 (num A)) (r : num A), Ordered3 b -> Finite3 c ->
  (Le (p3_distance c (clamp3 b c)) r <-> exists p, bb3_is_inside b p = true /\ Le (p3_distance c p) r).
Proof.
  intros A b c r O F. pose proof (num_OrdLaws A) as L. split.
  - intros H. exists (clamp3 b c). split; [now apply C103_clamp_inside_3d_pf | exact H].
  - intros (p & I & H). apply bb3_is_inside_iff in I. exact (Le_trans L _ _ _ (nearest3_ok b c p F I) H).
Qed.
Lemma C109_range_search_2d_pf : forall (A : arith) (prof : profile) (q : Point2 (num A)) (r : num A) (t : ptree2 (num A)), Finite2 q -> Forall NoNaN2 (points2 t) ->
  within2 prof q r t = filter (fun p => sle (p2_distance q p) r) (points2 t).
Proof.
  intros A prof q r t F. pose proof (num_OrdLaws A) as L. induction t as [p|a IHa b IHb]; intros H; [reflexivity|]. destruct (ptree2_ok (PNode2 a b) H) as [O I]. cbn [within2].
  destruct (sle (p2_distance q (clamp2 (pbounds2 (PNode2 a b)) q)) r) eqn:E.
  - destruct (forallb _ _) eqn:E'.
    + symmetry. apply filter_all. intros p Ip. destruct (corners2_bound prof _ q p F (I p Ip)) as (k & Ik & K). rewrite forallb_forall in E'. exact (Le_trans L _ _ _ K (E' k Ik)).
    + cbn [points2] in *. apply Forall_app in H. destruct H as [Ha Hb]. rewrite filter_app, IHa, IHb by assumption. reflexivity.
  - symmetry. apply filter_none. intros p Ip. destruct (sle (p2_distance q p) r) eqn:K; [|reflexivity]. rewrite <- E. symmetry. exact (Le_trans L _ _ _ (nearest2_ok _ q p F (I p Ip)) K).
Qed.
Lemma C109_range_search_3d_pf : forall (A : arith) (prof : profile) (q : Point3 (num A)) (r : num A) (t : ptree3 (num A)), Finite3 q -> Forall NoNaN3 (points3 t) ->
  within3 prof q r t = filter (fun p => sle (p3_distance q p) r) (points3 t).
Proof.
  intros A prof q r t F. pose proof (num_OrdLaws A) as L. induction t as [p|a IHa b IHb]; intros H; [reflexivity|]. destruct (ptree3_ok (PNode3 a b) H) as [O I]. cbn [within3].
  destruct (sle (p3_distance q (clamp3 (pbounds3 (PNode3 a b)) q)) r) eqn:E.
  - destruct (forallb _ _) eqn:E'.
    + symmetry. apply filter_all. intros p Ip. destruct (corners3_bound prof _ q p F (I p Ip)) as (k & Ik & K). rewrite forallb_forall in E'. exact (Le_trans L _ _ _ K (E' k Ik)).
    + cbn [points3] in *. apply Forall_app in H. destruct H as [Ha Hb]. rewrite filter_app, IHa, IHb by assumption. reflexivity.
  - symmetry. apply filter_none. intros p Ip. destruct (sle (p3_distance q p) r) eqn:K; [|reflexivity]. rewrite <- E. symmetry. exact (Le_trans L _ _ _ (nearest3_ok _ q p F (I p Ip)) K).
Qed.
Section BB.
Context {A : arith}.
Implicit Types x y r : num A.
(* one axis of the box around a ball *)
Lemma ball_axis y r : Finite r -> 0 <= real_of r -> Finite (ssub y r) -> Finite (sadd y r) ->
  tx (s_min (ssub y r) (sadd y r)) = tx (ssub y r) /\ tx (s_max (ssub y r) (sadd y r)) = tx (sadd y r).
Proof.
  intros Fr Pr F1 F2. destruct (err_add _ _ F2) as (Fy & _ & _). assert (K : xle (tx (ssub y r)) (tx (sadd y r)) = true).
  { rewrite tx_sub, tx_add, (Finite_real y Fy), (Finite_real r Fr). apply xr_mono. cbn [xsub xneg xadd]. apply xle_fin. lra. }
  rewrite tx_smin, tx_smax. split; [now apply xmin_l | now apply xmax_r].
Qed.
Lemma ball_err x y r : Finite (ssub x y) -> Le (sabs (ssub x y)) r -> Finite (ssub y r) -> Finite (sadd y r) ->
  real_of (s_min (ssub y r) (sadd y r)) - unit_roundoff A * (Rabs (real_of y - real_of r) + 2 * real_of r) <= real_of x <=
  real_of (s_max (ssub y r) (sadd y r)) + unit_roundoff A * (Rabs (real_of y + real_of r) + 2 * real_of r).
Proof.
  intros F H F1 F2. destruct (err_sub _ _ F) as (Fx & Fy & d & Hd & E). destruct (err_sub _ _ F1) as (_ & Fr & d1 & Hd1 & E1). destruct (err_add _ _ F2) as (_ & _ & d2 & Hd2 & E2).
  assert (Q : Rabs (real_of (ssub x y)) <= real_of r).
  { rewrite Le_tx, tx_abs, (Finite_real _ F), (Finite_real _ Fr) in H. cbn [xabs] in H. now apply xle_fin in H. }
  assert (P : 0 <= real_of r) by (apply Rle_trans with (2 := Q), Rabs_pos). destruct (ball_axis y r Fr P F1 F2) as [T1 T2].
  rewrite (proj2 (real_of_eq _ _ T1)) by (apply (proj1 (real_of_eq _ _ T1)), F1). rewrite (proj2 (real_of_eq _ _ T2)) by (apply (proj1 (real_of_eq _ _ T2)), F2). rewrite E1, E2. rewrite E in Q. clear E E1 E2 T1 T2 H F F1 F2 Fx Fy Fr.
  pose proof (u_pos (A := A)) as U. revert Q P U Hd Hd1 Hd2. generalize (real_of x) (real_of y) (real_of r) (unit_roundoff A). intros X Y S u Q P [U0 U1] Hd Hd1 Hd2.
  rewrite Rabs_mult in Q. assert (K : Rabs (X - Y) <= S * (1 + 2 * u)).
  { assert (D : 1 - u <= Rabs (1 + d)) by (unfold Rabs in *; destruct (Rcase_abs d), (Rcase_abs (1 + d)); lra). pose proof (Rabs_pos (X - Y)) as Z. assert (Z1 : Rabs (X - Y) * (1 - u) <= S) by nra. assert (Z2 : 1 <= (1 - u) * (1 + 2 * u)) by nra. assert (Z3 : Rabs (X - Y) * ((1 - u) * (1 + 2 * u)) <= S * (1 + 2 * u)) by nra. nra. }
  assert (K1 : Rabs ((Y - S) * d1) <= u * Rabs (Y - S)) by (rewrite Rabs_mult; pose proof (Rabs_pos (Y - S)); nra). assert (K2 : Rabs ((Y + S) * d2) <= u * Rabs (Y + S)) by (rewrite Rabs_mult; pose proof (Rabs_pos (Y + S)); nra).
  apply Rabs_le_inv in K, K1, K2. split; lra.
Qed.
End BB.
Lemma sq_le_sqrt a b : 0 <= b -> Rabs a <= sqrt (a ^ 2 + b).
Proof. intros H. rewrite <- sqrt_Rsqr_abs. apply sqrt_le_1_alt. unfold Rsqr. nra. Qed.
Lemma rdist_coord2 (p q : Point2 R) d : Rabs (coord2 q d - coord2 p d) <= Rdist2 p q.
Proof.
  unfold Rdist2. rewrite Rabs_minus_sym. destruct d; cbn [coord2].
  - apply sq_le_sqrt, pow2_ge_0.
  - rewrite Rplus_comm. apply sq_le_sqrt, pow2_ge_0.
Qed.
Lemma rdist_coord3 (p q : Point3 R) d : Rabs (coord3 q d - coord3 p d) <= Rdist3 p q.
Proof.
  unfold Rdist3. rewrite Rabs_minus_sym. destruct d; cbn [coord3].
  - rewrite Rplus_assoc. apply sq_le_sqrt, Rplus_le_le_0_compat; apply pow2_ge_0.
  - replace ((p3x p - p3x q) ^ 2 + (p3y p - p3y q) ^ 2 + (p3z p - p3z q) ^ 2) with ((p3y p - p3y q) ^ 2 + ((p3x p - p3x q) ^ 2 + (p3z p - p3z q) ^ 2)) by ring. apply sq_le_sqrt, Rplus_le_le_0_compat; apply pow2_ge_0.
  - rewrite Rplus_comm. apply sq_le_sqrt, Rplus_le_le_0_compat; apply pow2_ge_0.
Qed.
Definition step2 (p : Point2 R) d (x : R) := match d with D2X => mkPoint2 (p2x p + x) (p2y p) | D2Y => mkPoint2 (p2x p) (p2y p + x) end.
Definition step3 (p : Point3 R) d (x : R) := match d with D3X => mkPoint3 (p3x p + x) (p3y p) (p3z p) | D3Y => mkPoint3 (p3x p) (p3y p + x) (p3z p) | D3Z => mkPoint3 (p3x p) (p3y p) (p3z p + x) end.
Lemma step2_dist p d x : Rdist2 p (step2 p d x) = Rabs x.
Proof. unfold Rdist2. rewrite <- sqrt_Rsqr_abs. f_equal. destruct d; cbn; unfold Rsqr; ring. Qed.
Lemma step3_dist p d x : Rdist3 p (step3 p d x) = Rabs x.
Proof. unfold Rdist3. rewrite <- sqrt_Rsqr_abs. f_equal. destruct d; cbn; unfold Rsqr; ring. Qed.
Lemma ball_axis_exact y r : 0 <= r -> s_min (ssub (Fin y : num EXACT) (Fin r)) (sadd (Fin y : num EXACT) (Fin r)) = Fin (y - r) /\ s_max (ssub (Fin y : num EXACT) (Fin r)) (sadd (Fin y : num EXACT) (Fin r)) = Fin (y + r).
Proof. intros P. exact (ball_axis (A := EXACT) (Fin y) (Fin r) (eq_refl true) P (eq_refl true) (eq_refl true)). Qed.
Lemma ball2_coords (c : Point2 R) r d : 0 <= r -> coord2 (bb2_min (ball_box2 (XP2 c) (Fin r))) d = Fin (coord2 c d - r) /\ coord2 (bb2_max (ball_box2 (XP2 c) (Fin r))) d = Fin (coord2 c d + r).
Proof. intros P. pose proof (ball_axis_exact (coord2 c d) r P) as K. destruct d; exact K. Qed.
Lemma ball3_coords (c : Point3 R) r d : 0 <= r -> coord3 (bb3_min (ball_box3 (XP3 c) (Fin r))) d = Fin (coord3 c d - r) /\ coord3 (bb3_max (ball_box3 (XP3 c) (Fin r))) d = Fin (coord3 c d + r).
Proof. intros P. pose proof (ball_axis_exact (coord3 c d) r P) as K. destruct d; exact K. Qed.
Lemma C108_box_around_ball_exact_2d_pf : forall (c : Point2 R) (r : R), 0 <= r ->
  (forall q, Rdist2 c q <= r -> bb2_is_inside (ball_box2 (XP2 c) (Fin r)) (XP2 q) = true) /\
  (forall b : BoundingBox2 xreal, (forall q, Rdist2 c q <= r -> bb2_is_inside b (XP2 q) = true) -> Incl2 (ball_box2 (XP2 c) (Fin r)) b).
Proof.
  intros c r P. split.
  - intros q H. apply (bb2_is_inside_iff (S := num EXACT)). split; intros d; destruct (ball2_coords c r d P) as [E1 E2]; pose proof (rdist_coord2 c q d) as K; apply (Rle_trans _ _ _ K) in H; apply Rabs_le_inv in H.
    + assert (G : Le (Fin (coord2 c d - r) : num EXACT) (Fin (coord2 q d))) by (apply xle_fin; lra). rewrite <- E1 in G. destruct d; exact G.
    + assert (G : Le (Fin (coord2 q d) : num EXACT) (Fin (coord2 c d + r))) by (apply xle_fin; lra). rewrite <- E2 in G. destruct d; exact G.
  - intros b H p [I1 I2]. assert (B : forall d x, Rabs x <= r -> Le (coord2 (bb2_min b) d : num EXACT) (Fin (coord2 c d + x)) /\ Le (Fin (coord2 c d + x) : num EXACT) (coord2 (bb2_max b) d)).
    { intros d x X. assert (K : bb2_is_inside b (XP2 (step2 c d x)) = true) by (apply H; now rewrite step2_dist). apply (bb2_is_inside_iff (S := num EXACT)) in K. destruct K as [K1 K2]. specialize (K1 d). specialize (K2 d). destruct d; now split. }
    pose proof (num_OrdLaws EXACT) as L. split; intros d; destruct (ball2_coords c r d P) as [E1 E2].
    + specialize (I1 d). rewrite E1 in I1. destruct (B d (- r)) as [B1 _]; [rewrite Rabs_Ropp, Rabs_pos_eq by assumption; lra|]. exact (Le_trans L _ _ _ B1 I1).
    + specialize (I2 d). rewrite E2 in I2. destruct (B d r) as [_ B2]; [rewrite Rabs_pos_eq by assumption; lra|]. exact (Le_trans L _ _ _ I2 B2).
Qed.
Lemma C108_box_around_ball_exact_3d_pf : forall (c : Point3 R) (r : R), 0 <= r ->
  (forall q, Rdist3 c q <= r -> bb3_is_inside (ball_box3 (XP3 c) (Fin r)) (XP3 q) = true) /\
  (forall b : BoundingBox3 xreal, (forall q, Rdist3 c q <= r -> bb3_is_inside b (XP3 q) = true) -> Incl3 (ball_box3 (XP3 c) (Fin r)) b).
Proof.
  intros c r P. split.
  - intros q H. apply (bb3_is_inside_iff (S := num EXACT)). split; intros d; destruct (ball3_coords c r d P) as [E1 E2]; pose proof (rdist_coord3 c q d) as K; apply (Rle_trans _ _ _ K) in H; apply Rabs_le_inv in H.
    + assert (G : Le (Fin (coord3 c d - r) : num EXACT) (Fin (coord3 q d))) by (apply xle_fin; lra). rewrite <- E1 in G. destruct d; exact G.
    + assert (G : Le (Fin (coord3 q d) : num EXACT) (Fin (coord3 c d + r))) by (apply xle_fin; lra). rewrite <- E2 in G. destruct d; exact G.
  - intros b H p [I1 I2]. assert (B : forall d x, Rabs x <= r -> Le (coord3 (bb3_min b) d : num EXACT) (Fin (coord3 c d + x)) /\ Le (Fin (coord3 c d + x) : num EXACT) (coord3 (bb3_max b) d)).
    { intros d x X. assert (K : bb3_is_inside b (XP3 (step3 c d x)) = true) by (apply H; now rewrite step3_dist). apply (bb3_is_inside_iff (S := num EXACT)) in K. destruct K as [K1 K2]. specialize (K1 d). specialize (K2 d). destruct d; now split. }
    pose proof (num_OrdLaws EXACT) as L. split; intros d; destruct (ball3_coords c r d P) as [E1 E2].
    + specialize (I1 d). rewrite E1 in I1. destruct (B d (- r)) as [B1 _]; [rewrite Rabs_Ropp, Rabs_pos_eq by assumption; lra|]. exact (Le_trans L _ _ _ B1 I1).
    + specialize (I2 d). rewrite E2 in I2. destruct (B d r) as [_ B2]; [rewrite Rabs_pos_eq by assumption; lra|]. exact (Le_trans L _ _ _ I2 B2).
Qed.
Lemma C108_box_around_ball_error_2d_pf : forall (A : arith) (c q : Point2 (num A)) (r : num A) (d : Dimension2), (forall e, Finite (ssub (coord2 q e) (coord2 c e))) -> Finite (ssub (coord2 c d) r) -> Finite (sadd (coord2 c d) r) ->
  (let w := p2_sub q c in Finite (v2_dot w w) -> min_subnormal A <= unit_roundoff A * real_of (v2_dot w w)) -> Le (p2_distance c q) r ->
  let b := ball_box2 c r in let u := unit_roundoff A in let x := real_of (coord2 q d) in let y := real_of (coord2 c d) in let s := real_of r in
  real_of (coord2 (bb2_min b) d) - u * (Rabs (y - s) + 2 * s) <= x <= real_of (coord2 (bb2_max b) d) + u * (Rabs (y + s) + 2 * s).
Proof.
  intros A c q r d F F1 F2 R H. cbv zeta. pose proof (C87_coordinate_difference_le_distance_2d_pf A c q d F R) as K. pose proof (Le_trans (num_OrdLaws A) _ _ _ K H) as K'.
  pose proof (ball_err _ _ r (F d) K' F1 F2) as G. destruct d; exact G.
Qed.
Lemma C108_box_around_ball_error_3d_pf : forall (A : arith) (c q : Point3 (num A)) (r : num A) (d : Dimension3), (forall e, Finite (ssub (coord3 q e) (coord3 c e))) -> Finite (ssub (coord3 c d) r) -> Finite (sadd (coord3 c d) r) ->
  (let w := p3_sub q c in Finite (v3_dot w w) -> min_subnormal A <= unit_roundoff A * real_of (v3_dot w w)) -> Le (p3_distance c q) r ->
  let b := ball_box3 c r in let u := unit_roundoff A in let x := real_of (coord3 q d) in let y := real_of (coord3 c d) in let s := real_of r in
  real_of (coord3 (bb3_min b) d) - u * (Rabs (y - s) + 2 * s) <= x <= real_of (coord3 (bb3_max b) d) + u * (Rabs (y + s) + 2 * s).
Proof.
  intros A c q r d F F1 F2 R H. cbv zeta. pose proof (C87_coordinate_difference_le_distance_3d_pf A c q d F R) as K. pose proof (Le_trans (num_OrdLaws A) _ _ _ K H) as K'.
  pose proof (ball_err _ _ r (F d) K' F1 F2) as G. destruct d; exact G.
Qed.
