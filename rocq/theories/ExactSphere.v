(** Proofs: intersecting a ray with a ball (C123). *)
From Coq Require Import Bool NArith ZArith Reals List Lra Lia Psatz.
From Verif Require Import Scalar Types Vector2 Vector3 Point2 Point3 Ray BoundingBox2 BoundingBox3 Transform2 Transform3
  XReal OrdLaws Arith SpecOrder SpecReal SpecBox SpecSphere XTac ExactBase ExactVec ExactBox ExactTrans ExactTransRay ExactCircum ExactReflect ExactTri.
Local Open Scope R_scope.
Lemma quad a b k t : 0 < a -> (a * t * t + 2 * b * t + k <= 0 <-> (a * t + b) * (a * t + b) <= b * b - a * k).
Proof. intros A. replace ((a * t + b) * (a * t + b)) with (a * (a * t * t + 2 * b * t + k) + (b * b - a * k)) by ring. split; intros H; nra. Qed.
Lemma sq_le x s : 0 <= s -> (x * x <= s * s <-> - s <= x <= s).
Proof. intros S. split; intros H; [split; nra | nra]. Qed.
Lemma quad_root a b k t : 0 < a -> 0 <= b * b - a * k -> let q := sqrt (b * b - a * k) in
  (a * t * t + 2 * b * t + k <= 0 <-> (- b - q) / a <= t <= (- b + q) / a).
Proof.
  intros A D q. assert (Q : 0 <= q) by apply sqrt_pos. assert (QQ : q * q = b * b - a * k) by now apply sqrt_sqrt. rewrite quad by exact A. rewrite <- QQ, sq_le by exact Q.
  assert (E1 : (- b - q) / a * a = - b - q) by (field; lra). assert (E2 : (- b + q) / a * a = - b + q) by (field; lra).
  split; intros [H1 H2]; (split; [|]).
  - apply (Rmult_le_reg_r a); [exact A|]. rewrite E1. lra.
  - apply (Rmult_le_reg_r a); [exact A|]. rewrite E2. lra.
  - apply (Rmult_le_compat_r a) in H1; [|lra]. rewrite E1 in H1. lra.
  - apply (Rmult_le_compat_r a) in H2; [|lra]. rewrite E2 in H2. lra.
Qed.
Lemma ball_sq2 r c t : dsq2 c (Rat2 r t) = Rdot2 (r2_direction r) (r2_direction r) * t * t + 2 * Rdot2 (Rpp2 (r2_origin r) c) (r2_direction r) * t + Rdot2 (Rpp2 (r2_origin r) c) (Rpp2 (r2_origin r) c).
Proof. fv2. ring. Qed.
Lemma xball2 r c rad : r2_direction r <> Rzero2 -> let a := Rdot2 (r2_direction r) (r2_direction r) in let b := Rdot2 (Rpp2 (r2_origin r) c) (r2_direction r) in
  let k := Rdot2 (Rpp2 (r2_origin r) c) (Rpp2 (r2_origin r) c) - rad * rad in let D := b * b - a * k in
  ray_ball2 (XR2 r) (XP2 c) (Fin rad) = if slt (Fin D) szero then None else
   if slt (Fin ((- b + sqrt D) / a)) szero then None else Some (if slt (Fin ((- b - sqrt D) / a)) szero then szero else Fin ((- b - sqrt D) / a), Fin ((- b + sqrt D) / a)).
Proof.
  intros H. cbv zeta. pose proof (nz2 _ H) as Z. unfold ray_ball2. cbn [XR2 r2_origin r2_direction]. rewrite !xpp2, !xd2. cbn [smul ssub sneg xreal_ops xmul xsub xadd xneg].
  replace (Rdot2 (Rpp2 (r2_origin r) c) (Rpp2 (r2_origin r) c) + - (rad * rad)) with (Rdot2 (Rpp2 (r2_origin r) c) (Rpp2 (r2_origin r) c) - rad * rad) by ring.
  match goal with |- context [Fin (?x + - ?y)] => replace (x + - y) with (x - y) by ring end.
  match goal with |- context [slt (Fin ?x) szero] => set (D := x) end. destruct (slt (Fin D) szero) eqn:E; [reflexivity|]. apply xlt_false in E.
  assert (SQ : ssqrt (Fin D) = Fin (sqrt D)). { cbn [ssqrt xreal_ops]. now apply xsqrt_fin. }
  rewrite SQ. cbn [sdiv sadd ssub sneg xreal_ops xadd xsub xneg]. rewrite !xdiv_fin by exact Z. unfold Rminus. reflexivity.
Qed.
Lemma ball_sq3 r c t : dsq3 c (Rat3 r t) = Rdot3 (r3_direction r) (r3_direction r) * t * t + 2 * Rdot3 (Rpp3 (r3_origin r) c) (r3_direction r) * t + Rdot3 (Rpp3 (r3_origin r) c) (Rpp3 (r3_origin r) c).
Proof. fv3. ring. Qed.
Lemma xball3 r c rad : r3_direction r <> Rzero3 -> let a := Rdot3 (r3_direction r) (r3_direction r) in let b := Rdot3 (Rpp3 (r3_origin r) c) (r3_direction r) in
  let k := Rdot3 (Rpp3 (r3_origin r) c) (Rpp3 (r3_origin r) c) - rad * rad in let D := b * b - a * k in
  ray_ball3 (XR3 r) (XP3 c) (Fin rad) = if slt (Fin D) szero then None else
   if slt (Fin ((- b + sqrt D) / a)) szero then None else Some (if slt (Fin ((- b - sqrt D) / a)) szero then szero else Fin ((- b - sqrt D) / a), Fin ((- b + sqrt D) / a)).
Proof.
  intros H. cbv zeta. pose proof (nz3 _ H) as Z. unfold ray_ball3. cbn [XR3 r3_origin r3_direction]. rewrite !xpp3, !xd3. cbn [smul ssub sneg xreal_ops xmul xsub xadd xneg].
  replace (Rdot3 (Rpp3 (r3_origin r) c) (Rpp3 (r3_origin r) c) + - (rad * rad)) with (Rdot3 (Rpp3 (r3_origin r) c) (Rpp3 (r3_origin r) c) - rad * rad) by ring.
  match goal with |- context [Fin (?x + - ?y)] => replace (x + - y) with (x - y) by ring end.
  match goal with |- context [slt (Fin ?x) szero] => set (D := x) end. destruct (slt (Fin D) szero) eqn:E; [reflexivity|]. apply xlt_false in E.
  assert (SQ : ssqrt (Fin D) = Fin (sqrt D)). { cbn [ssqrt xreal_ops]. now apply xsqrt_fin. }
  rewrite SQ. cbn [sdiv sadd ssub sneg xreal_ops xadd xsub xneg]. rewrite !xdiv_fin by exact Z. unfold Rminus. reflexivity.
Qed.
Lemma C123_ray_ball_2d_pf : forall (r : Ray2 R) (c : Point2 R) (radius : R), r2_direction r <> Rzero2 -> 0 <= radius ->
  match ray_ball2 (XR2 r) (XP2 c) (Fin radius) with
  | None => forall t : R, 0 <= t -> ~ Le (p2_distance (XP2 c) (r2_at (XR2 r) (Fin t))) (Fin radius)
  | Some (s, e) => exists s' e' : R, s = Fin s' /\ e = Fin e' /\ 0 <= s' <= e' /\
      forall t : R, 0 <= t -> (Le (p2_distance (XP2 c) (r2_at (XR2 r) (Fin t))) (Fin radius) <-> s' <= t <= e')
  end.
Proof.
  intros r c rad H HR. rewrite xball2 by exact H. cbv zeta. pose proof (Rdot2_pos _ H) as P.
  set (a := Rdot2 (r2_direction r) (r2_direction r)) in *. set (b := Rdot2 (Rpp2 (r2_origin r) c) (r2_direction r)). set (w := Rdot2 (Rpp2 (r2_origin r) c) (Rpp2 (r2_origin r) c)).
  assert (K : forall t, Le (p2_distance (XP2 c) (r2_at (XR2 r) (Fin t))) (Fin rad) <-> a * t * t + 2 * b * t + (w - rad * rad) <= 0).
  { intros t. rewrite xr2_at, xdist2. unfold Le. cbn [sle xreal_ops]. rewrite xle_fin. pose proof (ball_sq2 r c t) as B. fold a b w in B. pose proof (dsq2_nn c (Rat2 r t)) as N.
    split; intros L.
    - pose proof (sqrt_pos (dsq2 c (Rat2 r t))) as S. pose proof (sqrt_sqrt _ N) as Q. nra.
    - rewrite <- (sqrt_square rad) by exact HR. apply sqrt_le_1_alt. lra. }
  set (D := b * b - a * (w - rad * rad)). destruct (slt (Fin D) szero) eqn:E.
  - intros t _ L. apply K in L. apply quad in L; [|exact P]. cbn [slt szero xreal_ops] in E. apply xlt_fin in E. fold D in L. pose proof (Rle_0_sqr (a * t + b)) as S. unfold Rsqr in S. lra.
  - apply xlt_false in E. assert (G : forall t, Le (p2_distance (XP2 c) (r2_at (XR2 r) (Fin t))) (Fin rad) <-> (- b - sqrt D) / a <= t <= (- b + sqrt D) / a) by (intros t; rewrite K; now apply quad_root).
    assert (SE : (- b - sqrt D) / a <= (- b + sqrt D) / a) by (apply Rmult_le_compat_r; [left; now apply Rinv_0_lt_compat | pose proof (sqrt_pos D); lra]).
    destruct (slt (Fin ((- b + sqrt D) / a)) szero) eqn:E2.
    + cbn [slt szero xreal_ops] in E2. apply xlt_fin in E2. intros t Ht L. apply G in L. lra.
    + apply xlt_false in E2. destruct (slt (Fin ((- b - sqrt D) / a)) szero) eqn:E3.
      * cbn [slt szero xreal_ops] in E3. apply xlt_fin in E3. exists 0, ((- b + sqrt D) / a). split; [reflexivity|]. split; [reflexivity|]. split; [lra|]. intros t Ht. rewrite G. split; intros; lra.
      * apply xlt_false in E3. exists ((- b - sqrt D) / a), ((- b + sqrt D) / a). split; [reflexivity|]. split; [reflexivity|]. split; [lra|]. intros t Ht. apply G.
Qed.
Lemma C123_ray_ball_3d_pf : forall (r : Ray3 R) (c : Point3 R) (radius : R), r3_direction r <> Rzero3 -> 0 <= radius ->
  match ray_ball3 (XR3 r) (XP3 c) (Fin radius) with
  | None => forall t : R, 0 <= t -> ~ Le (p3_distance (XP3 c) (r3_at (XR3 r) (Fin t))) (Fin radius)
  | Some (s, e) => exists s' e' : R, s = Fin s' /\ e = Fin e' /\ 0 <= s' <= e' /\
      forall t : R, 0 <= t -> (Le (p3_distance (XP3 c) (r3_at (XR3 r) (Fin t))) (Fin radius) <-> s' <= t <= e')
  end.
Proof.
  intros r c rad H HR. rewrite xball3 by exact H. cbv zeta. pose proof (Rdot3_pos _ H) as P.
  set (a := Rdot3 (r3_direction r) (r3_direction r)) in *. set (b := Rdot3 (Rpp3 (r3_origin r) c) (r3_direction r)). set (w := Rdot3 (Rpp3 (r3_origin r) c) (Rpp3 (r3_origin r) c)).
  assert (K : forall t, Le (p3_distance (XP3 c) (r3_at (XR3 r) (Fin t))) (Fin rad) <-> a * t * t + 2 * b * t + (w - rad * rad) <= 0).
  { intros t. rewrite xr3_at, xdist3. unfold Le. cbn [sle xreal_ops]. rewrite xle_fin. pose proof (ball_sq3 r c t) as B. fold a b w in B. pose proof (dsq3_nn c (Rat3 r t)) as N.
    split; intros L.
    - pose proof (sqrt_pos (dsq3 c (Rat3 r t))) as S. pose proof (sqrt_sqrt _ N) as Q. nra.
    - rewrite <- (sqrt_square rad) by exact HR. apply sqrt_le_1_alt. lra. }
  set (D := b * b - a * (w - rad * rad)). destruct (slt (Fin D) szero) eqn:E.
  - intros t _ L. apply K in L. apply quad in L; [|exact P]. cbn [slt szero xreal_ops] in E. apply xlt_fin in E. fold D in L. pose proof (Rle_0_sqr (a * t + b)) as S. unfold Rsqr in S. lra.
  - apply xlt_false in E. assert (G : forall t, Le (p3_distance (XP3 c) (r3_at (XR3 r) (Fin t))) (Fin rad) <-> (- b - sqrt D) / a <= t <= (- b + sqrt D) / a) by (intros t; rewrite K; now apply quad_root).
    assert (SE : (- b - sqrt D) / a <= (- b + sqrt D) / a) by (apply Rmult_le_compat_r; [left; now apply Rinv_0_lt_compat | pose proof (sqrt_pos D); lra]).
    destruct (slt (Fin ((- b + sqrt D) / a)) szero) eqn:E2.
    + cbn [slt szero xreal_ops] in E2. apply xlt_fin in E2. intros t Ht L. apply G in L. lra.
    + apply xlt_false in E2. destruct (slt (Fin ((- b - sqrt D) / a)) szero) eqn:E3.
      * cbn [slt szero xreal_ops] in E3. apply xlt_fin in E3. exists 0, ((- b + sqrt D) / a). split; [reflexivity|]. split; [reflexivity|]. split; [lra|]. intros t Ht. rewrite G. split; intros; lra.
      * apply xlt_false in E3. exists ((- b - sqrt D) / a), ((- b + sqrt D) / a). split; [reflexivity|]. split; [reflexivity|]. split; [lra|]. intros t Ht. apply G.
Qed.
Definition spr2 : Ray2 R := mkRay2 (mkPoint2 (-5) 0) (mkVector2 1 0).
Definition spc2 : Point2 R := mkPoint2 0 0.
Definition spr3 : Ray3 R := mkRay3 (mkPoint3 (-5) 0 0) (mkVector3 1 0 0).
Definition spc3 : Point3 R := mkPoint3 0 0 0.
Lemma sp_facts2 : r2_direction spr2 <> Rzero2 /\ forall t, Le (p2_distance (XP2 spc2) (r2_at (XR2 spr2) (Fin t))) (Fin 2) <-> 3 <= t <= 7.
Proof.
  split; [unfold spr2, Rzero2; cbn; intros E; injection E; lra|]. intros t. rewrite xr2_at, xdist2. unfold Le. cbn [sle xreal_ops]. rewrite xle_fin.
  assert (Q : dsq2 spc2 (Rat2 spr2 t) = (t - 5) ^ 2) by (unfold dsq2, Rat2, spr2, spc2; cbn; ring). rewrite Q.
  replace ((t - 5) ^ 2) with (Rsqr (t - 5)) by (unfold Rsqr; ring). rewrite sqrt_Rsqr_abs. split; intros H; [split; [pose proof (Rle_abs (- (t - 5))) as X; rewrite Rabs_Ropp in X; lra | pose proof (Rle_abs (t - 5)); lra] | apply Rabs_le; lra].
Qed.
Lemma sp_facts3 : r3_direction spr3 <> Rzero3 /\ forall t, Le (p3_distance (XP3 spc3) (r3_at (XR3 spr3) (Fin t))) (Fin 2) <-> 3 <= t <= 7.
Proof.
  split; [unfold spr3, Rzero3; cbn; intros E; injection E; lra|]. intros t. rewrite xr3_at, xdist3. unfold Le. cbn [sle xreal_ops]. rewrite xle_fin.
  assert (Q : dsq3 spc3 (Rat3 spr3 t) = (t - 5) ^ 2) by (unfold dsq3, Rat3, spr3, spc3; cbn; ring). rewrite Q.
  replace ((t - 5) ^ 2) with (Rsqr (t - 5)) by (unfold Rsqr; ring). rewrite sqrt_Rsqr_abs. split; intros H; [split; [pose proof (Rle_abs (- (t - 5))) as X; rewrite Rabs_Ropp in X; lra | pose proof (Rle_abs (t - 5)); lra] | apply Rabs_le; lra].
Qed.
