(** Proofs of the exact-arithmetic properties of transforms. *)
From Coq Require Import Bool NArith ZArith Reals List Lra Lia Psatz.
From Flocq Require Import Core.Raux.
From Verif Require Import Scalar Types Vector2 Vector3 Point2 Point3 Ray BoundingBox2 BoundingBox3 Transform2 Transform3
  XReal OrdLaws Arith SpecOrder SpecStruct SpecReal SpecTrans XTac ExactBase ExactVec Comm MatComm Struct Struct2 Adj4 ExactMat ExactRot.
Import ListNotations.
Local Open Scope R_scope.
(* real-level frame computed by look_at *)
Definition Rcross (a b : Vector3 R) : Vector3 R :=
  mkVector3 (v3y a * v3z b - v3z a * v3y b) (v3z a * v3x b - v3x a * v3z b) (v3x a * v3y b - v3y a * v3x b).
Definition la_dir (from target : Point3 R) : Vector3 R := Runit (Rsub3 target from).
Definition la_right (from target : Point3 R) (up : Vector3 R) : Vector3 R := Runit (Rcross (Runit up) (la_dir from target)).
Definition la_up from target up := Rcross (la_dir from target) (la_right from target up).
Definition la_inv (from target : Point3 R) (up : Vector3 R) : Matrix4x4 R :=
  let d := la_dir from target in let r := la_right from target up in let u := la_up from target up in
  mkM4 (v3x r) (v3x u) (v3x d) (p3x from) (v3y r) (v3y u) (v3y d) (p3y from) (v3z r) (v3z u) (v3z d) (p3z from) 0 0 0 1.
Definition la_fwd (from target : Point3 R) (up : Vector3 R) : Matrix4x4 R :=
  let d := la_dir from target in let r := la_right from target up in let u := la_up from target up in
  let f := mkVector3 (p3x from) (p3y from) (p3z from) in
  mkM4 (v3x r) (v3y r) (v3z r) (- Rdot3 r f) (v3x u) (v3y u) (v3z u) (- Rdot3 u f) (v3x d) (v3y d) (v3z d) (- Rdot3 d f) 0 0 0 1.
Lemma xv3_cross a b : v3_cross (XV3 a) (XV3 b) = XV3 (Rcross a b).
Proof. reflexivity. Qed.
Lemma Indep3_nz1 u v : Indep3 u v -> u <> Rzero3.
Proof. intros H E. subst. destruct (H 1 0); cbn; lra. Qed.
Lemma Indep3_nz2 u v : Indep3 u v -> v <> Rzero3.
Proof. intros H E. subst. destruct (H 0 1); cbn; lra. Qed.
Lemma Indep3_cross u v : Indep3 u v -> Rcross u v <> Rzero3.
Proof.
  intros H E. pose proof (Indep3_nz1 u v H) as N. apply N. destruct u as [a b c], v as [x y z]. unfold Rcross, Rzero3 in E. cbn in E.
  injection E as E1 E2 E3. unfold Rzero3. unfold Indep3 in H. cbn in H.
  assert (X : x = 0 -> y = 0 -> z = 0 -> False). { intros -> -> ->. destruct (H 0 1); lra. }
  assert (H1 : - x = 0 /\ a = 0) by (apply H; lra).
  assert (H2 : - y = 0 /\ b = 0) by (apply H; lra).
  assert (H3 : - z = 0 /\ c = 0) by (apply H; lra).
  exfalso. apply X; lra.
Qed.
Lemma Rcross_scale a b s t : Rcross (mkVector3 (v3x a * s) (v3y a * s) (v3z a * s)) (mkVector3 (v3x b * t) (v3y b * t) (v3z b * t)) =
  mkVector3 (v3x (Rcross a b) * (s * t)) (v3y (Rcross a b) * (s * t)) (v3z (Rcross a b) * (s * t)).
Proof. destruct a, b. unfold Rcross. cbn. f_equal; ring. Qed.
Lemma Runit_scaled a : Runit a = mkVector3 (v3x a * / Rnorm3 a) (v3y a * / Rnorm3 a) (v3z a * / Rnorm3 a).
Proof. reflexivity. Qed.
Lemma la_cross_nz from target up : Indep3 up (Rsub3 target from) -> Rcross (Runit up) (la_dir from target) <> Rzero3.
Proof.
  intros H. unfold la_dir. rewrite (Runit_scaled up), (Runit_scaled (Rsub3 target from)), Rcross_scale.
  pose proof (Indep3_cross _ _ H) as K. pose proof (Rnorm3_pos _ (Indep3_nz1 _ _ H)) as N1. pose proof (Rnorm3_pos _ (Indep3_nz2 _ _ H)) as N2.
  assert (N : / Rnorm3 up * / Rnorm3 (Rsub3 target from) <> 0).
  { apply Rmult_integral_contrapositive. split; apply Rinv_neq_0_compat; lra. }
  revert K N. generalize (/ Rnorm3 up * / Rnorm3 (Rsub3 target from)). intros s K N E. apply K.
  destruct (Rcross up (Rsub3 target from)) as [x y z]. unfold Rzero3 in *. cbn in E. injection E as E1 E2 E3.
  apply Rmult_integral in E1, E2, E3. f_equal; tauto.
Qed.
Lemma xm4_look_at from target up : Indep3 up (Rsub3 target from) ->
  m4_inverse_look_at (XP3 from) (XP3 target) (XV3 up) = XM4 (la_inv from target up).
Proof.
  intros H. unfold m4_inverse_look_at. rewrite xp3_sub. fold (Rsub3 target from).
  rewrite (xv3_normalize (Rsub3 target from)) by (eapply Indep3_nz2; eassumption). fold (Runit (Rsub3 target from)). fold (la_dir from target).
  rewrite (xv3_normalize up) by (eapply Indep3_nz1; eassumption). fold (Runit up). rewrite xv3_cross.
  rewrite xv3_normalize by now apply la_cross_nz. fold (Runit (Rcross (Runit up) (la_dir from target))). fold (la_right from target up).
  rewrite xv3_cross. fold (la_up from target up). reflexivity.
Qed.
(* orthonormal frame facts *)
Record frame (r u d : Vector3 R) : Prop := {
  f_rr : Rdot3 r r = 1; f_dd : Rdot3 d d = 1; f_rd : Rdot3 r d = 0; f_u : u = Rcross d r }.
Lemma la_frame from target up : Indep3 up (Rsub3 target from) ->
  frame (la_right from target up) (la_up from target up) (la_dir from target).
Proof.
  intros H. constructor.
  - apply Runit_dot. now apply la_cross_nz.
  - apply Runit_dot. eapply Indep3_nz2; eassumption.
  - unfold la_right. set (d := la_dir from target). rewrite Runit_scaled. set (k := / Rnorm3 _). clearbody k d.
    destruct d as [d1 d2 d3], (Runit up) as [a b c]. unfold Rcross, Rdot3; cbn. ring.
  - reflexivity.
Qed.
Lemma frame_mat r u d f : frame r u d ->
  let F := mkVector3 (p3x f) (p3y f) (p3z f) in
  let inv := mkM4 (v3x r) (v3x u) (v3x d) (p3x f) (v3y r) (v3y u) (v3y d) (p3y f) (v3z r) (v3z u) (v3z d) (p3z f) 0 0 0 1 in
  let fwd := mkM4 (v3x r) (v3y r) (v3z r) (- Rdot3 r F) (v3x u) (v3y u) (v3z u) (- Rdot3 u F) (v3x d) (v3y d) (v3z d) (- Rdot3 d F) 0 0 0 1 in
  m4_mul (O := R_ops) fwd inv = m4_identity (O := R_ops) /\ mat_det 4 (ent4 inv) = 1.
Proof.
  intros [Hr Hd Hrd ->]. destruct r as [r1 r2 r3], d as [d1 d2 d3], f as [f1 f2 f3]. unfold Rdot3, Rcross in *. cbn [v3x v3y v3z p3x p3y p3z] in *.
  assert (U : (d2 * r3 - d3 * r2) * (d2 * r3 - d3 * r2) + (d3 * r1 - d1 * r3) * (d3 * r1 - d1 * r3) + (d1 * r2 - d2 * r1) * (d1 * r2 - d2 * r1) = 1).
  { transitivity ((d1 * d1 + d2 * d2 + d3 * d3) * (r1 * r1 + r2 * r2 + r3 * r3) - (r1 * d1 + r2 * d2 + r3 * d3) * (r1 * d1 + r2 * d2 + r3 * d3)); [ring|].
    rewrite Hr, Hd, Hrd. ring. }
  split.
  - rcbv. meqs; try ring; try (rewrite <- Hrd; ring); try (rewrite <- Hr; ring); try (etransitivity; [|exact Hr]; ring); try (etransitivity; [|exact Hd]; ring); try (etransitivity; [|exact Hrd]; ring); try (etransitivity; [|exact U]; ring).
  - mred. etransitivity; [|exact U]. ring.
Qed.
Lemma m4_left_inverse (a b c : Matrix4x4 R) :
  m4_mul (XM4 a) (XM4 b) = m4_identity -> m4_mul (XM4 b) (XM4 c) = m4_identity -> XM4 a = XM4 c.
Proof.
  intros H1 H2. destruct (C37_product_algebra_4x4_pf a b c) as (As & _ & _).
  rewrite H1, H2 in As. rewrite (proj1 (proj2 (C37_product_algebra_4x4_pf c c c))) in As.
  rewrite (proj2 (proj2 (C37_product_algebra_4x4_pf a a a))) in As. auto.
Qed.
Lemma xt3_look_at prof from target up : Indep3 up (Rsub3 target from) ->
  t3_look_at prof (XP3 from) (XP3 target) (XV3 up) = Ret (Ok (mkT3 (XM4 (la_fwd from target up)) (XM4 (la_inv from target up)))).
Proof.
  intros H. unfold t3_look_at. rewrite xm4_look_at by assumption.
  destruct (frame_mat _ _ _ from (la_frame from target up H)) as [HI HD].
  fold (la_inv from target up) in HI, HD.
  change (m4_mul (O := R_ops) (la_fwd from target up) (la_inv from target up) = m4_identity (O := R_ops)) in HI.
  assert (D : mat_det 4 (ent4 (la_inv from target up)) <> 0). { intros Z. rewrite Z in HD. lra. }
  rewrite xm4_inverse_ok by assumption. cbn [obind]. do 2 f_equal. unfold t3_new. apply mkT3_eq; [|reflexivity].
  destruct (Rinv4_mul _ D) as [H1 H2]. symmetry. eapply m4_left_inverse; [|exact H1].
  rewrite xm4_mul, HI. reflexivity.
Qed.
Lemma la_point from target up p :
  m4_mul_point (XM4 (la_fwd from target up)) (XP3 p) =
  XP3 (mkPoint3 (Rdot3 (la_right from target up) (Rsub3 p from)) (Rdot3 (la_up from target up) (Rsub3 p from)) (Rdot3 (la_dir from target) (Rsub3 p from))).
Proof.
  rewrite xm3_point_affine, img3_affine by repeat split. f_equal. unfold la_fwd, Rdot3, Rsub3. cbn. f_equal; ring.
Qed.
Lemma la_vector from target up v :
  m4_mul_vector (XM4 (la_fwd from target up)) (XV3 v) =
  XV3 (mkVector3 (Rdot3 (la_right from target up) v) (Rdot3 (la_up from target up) v) (Rdot3 (la_dir from target) v)).
Proof. reflexivity. Qed.
Lemma Runit_self a : a <> Rzero3 -> Rdot3 (Runit a) a = Rnorm3 a.
Proof.
  intros H. pose proof (Rnorm3_pos a H). apply (Rmult_eq_reg_r (Rnorm3 a)); [|lra]. rewrite Rnorm3_sq. unfold Runit, Rdot3; cbn. field. lra.
Qed.
Lemma la_up_facts from target up : Indep3 up (Rsub3 target from) ->
  Rdot3 (la_right from target up) up = 0 /\ 0 < Rdot3 (la_up from target up) up /\
  Rdot3 (la_right from target up) (Rsub3 target from) = 0 /\ Rdot3 (la_up from target up) (Rsub3 target from) = 0.
Proof.
  intros H. pose proof (Rnorm3_pos _ (Indep3_nz1 _ _ H)) as N1. pose proof (Rnorm3_pos _ (Indep3_nz2 _ _ H)) as N2.
  pose proof (Rnorm3_pos _ (la_cross_nz _ _ _ H)) as N3. pose proof (Rdot3_pos _ (la_cross_nz _ _ _ H)) as N4.
  unfold la_up, la_right, la_dir in *. rewrite (Runit_scaled up), (Runit_scaled (Rsub3 target from)) in *.
  rewrite (Runit_scaled (Rcross _ _)).
  assert (P1 : Rnorm3 up * / Rnorm3 up = 1) by (apply Rinv_r; lra).
  set (i1 := / Rnorm3 up) in *. set (i2 := / Rnorm3 (Rsub3 target from)) in *. set (i3 := / Rnorm3 (Rcross _ _)) in *.
  assert (K3 : 0 < i3) by (apply Rinv_0_lt_compat; assumption). assert (K1 : 0 < i1) by (apply Rinv_0_lt_compat; assumption).
  clearbody i3. clear N3 N2. destruct up as [a b c], (Rsub3 target from) as [x y z]. cbn [v3x v3y v3z] in *.
  set (n1 := Rnorm3 _) in *. clearbody n1 i1 i2.
  repeat split; try (unfold Rcross, Rdot3; cbn; ring).
  match goal with |- 0 < ?X => replace X with (i3 * n1 * Rdot3 (Rcross (mkVector3 (a * i1) (b * i1) (c * i1)) (mkVector3 (x * i2) (y * i2) (z * i2))) (Rcross (mkVector3 (a * i1) (b * i1) (c * i1)) (mkVector3 (x * i2) (y * i2) (z * i2)))) end.
  - apply Rmult_lt_0_compat; [|assumption]. apply Rmult_lt_0_compat; assumption.
  - transitivity (i3 * (n1 * i1) * Rdot3 (Rcross (mkVector3 a b c) (mkVector3 (x * i2) (y * i2) (z * i2))) (Rcross (mkVector3 (a * i1) (b * i1) (c * i1)) (mkVector3 (x * i2) (y * i2) (z * i2)))).
    + unfold Rcross, Rdot3; cbn; ring.
    + rewrite P1. unfold Rcross, Rdot3; cbn; ring.
Qed.
Lemma frame_cross r u d : frame r u d -> Rcross u d = r /\ Rcross r u = d.
Proof.
  intros [Hr Hd Hrd ->]. destruct r as [r1 r2 r3], d as [d1 d2 d3]. unfold Rdot3, Rcross in *. cbn [v3x v3y v3z] in *. split; f_equal.
  - transitivity (r1 * (d1 * d1 + d2 * d2 + d3 * d3) - d1 * (r1 * d1 + r2 * d2 + r3 * d3)); [ring|rewrite Hd, Hrd; ring].
  - transitivity (r2 * (d1 * d1 + d2 * d2 + d3 * d3) - d2 * (r1 * d1 + r2 * d2 + r3 * d3)); [ring|rewrite Hd, Hrd; ring].
  - transitivity (r3 * (d1 * d1 + d2 * d2 + d3 * d3) - d3 * (r1 * d1 + r2 * d2 + r3 * d3)); [ring|rewrite Hd, Hrd; ring].
  - transitivity (d1 * (r1 * r1 + r2 * r2 + r3 * r3) - r1 * (r1 * d1 + r2 * d2 + r3 * d3)); [ring|rewrite Hr, Hrd; ring].
  - transitivity (d2 * (r1 * r1 + r2 * r2 + r3 * r3) - r2 * (r1 * d1 + r2 * d2 + r3 * d3)); [ring|rewrite Hr, Hrd; ring].
  - transitivity (d3 * (r1 * r1 + r2 * r2 + r3 * r3) - r3 * (r1 * d1 + r2 * d2 + r3 * d3)); [ring|rewrite Hr, Hrd; ring].
Qed.
Lemma frame_cross_apply r u d a b : frame r u d ->
  Rcross (mkVector3 (Rdot3 r a) (Rdot3 u a) (Rdot3 d a)) (mkVector3 (Rdot3 r b) (Rdot3 u b) (Rdot3 d b)) =
  mkVector3 (Rdot3 r (Rcross a b)) (Rdot3 u (Rcross a b)) (Rdot3 d (Rcross a b)).
Proof.
  intros F. destruct (frame_cross r u d F) as [E1 E2]. destruct F as [_ _ _ E3].
  transitivity (mkVector3 (Rdot3 (Rcross u d) (Rcross a b)) (Rdot3 (Rcross d r) (Rcross a b)) (Rdot3 (Rcross r u) (Rcross a b))).
  - clear. destruct r, u, d, a, b. unfold Rdot3, Rcross; cbn. f_equal; ring.
  - now rewrite E1, E2, <- E3.
Qed.
Lemma m4_inv_comm (a b : Matrix4x4 R) : m4_mul (XM4 a) (XM4 b) = m4_identity -> m4_mul (XM4 b) (XM4 a) = m4_identity.
Proof.
  intros H. assert (D : mat_det 4 (ent4 b) <> 0).
  { intros Z. pose proof (proj1 (id_mul4_iff a b) H) as K. apply det4_ext in K. rewrite det4_mul, det4_id, Z in K. lra. }
  destruct (Rinv4_mul b D) as [H1 H2]. now rewrite (m4_left_inverse a b (Rinv4 b) H H1).
Qed.
Lemma frame_dot_apply r u d a b : frame r u d ->
  Rdot3 (mkVector3 (Rdot3 r a) (Rdot3 u a) (Rdot3 d a)) (mkVector3 (Rdot3 r b) (Rdot3 u b) (Rdot3 d b)) = Rdot3 a b.
Proof.
  intros F. destruct (frame_mat r u d (mkPoint3 0 0 0) F) as [HI _].
  apply (f_equal XM4) in HI. rewrite <- xm4_mul, <- xm4_identity in HI. apply m4_inv_comm in HI.
  rewrite xm4_mul, xm4_identity in HI. apply XM4_inj in HI. clear F.
  destruct r as [r1 r2 r3], u as [u1 u2 u3], d as [d1 d2 d3], a as [a1 a2 a3], b as [b1 b2 b3].
  unfold Rdot3 in *. cbn [v3x v3y v3z p3x p3y p3z] in *. cbv beta iota zeta delta [R_ops szero sone sadd ssub smul m4_new m4_mul m4_identity m4_0 m4_1 m4_2 m4_3 m4_4 m4_5
  m4_6 m4_7 m4_8 m4_9 m4_10 m4_11 m4_12 m4_13 m4_14 m4_15] in HI.
  injection HI. intros.
  assert (E11 : r1 * r1 + u1 * u1 + d1 * d1 = 1) by lra. assert (E12 : r1 * r2 + u1 * u2 + d1 * d2 = 0) by lra.
  assert (E13 : r1 * r3 + u1 * u3 + d1 * d3 = 0) by lra. assert (E22 : r2 * r2 + u2 * u2 + d2 * d2 = 1) by lra.
  assert (E23 : r2 * r3 + u2 * u3 + d2 * d3 = 0) by lra. assert (E33 : r3 * r3 + u3 * u3 + d3 * d3 = 1) by lra.
  transitivity (a1 * b1 * (r1 * r1 + u1 * u1 + d1 * d1) + a2 * b2 * (r2 * r2 + u2 * u2 + d2 * d2) + a3 * b3 * (r3 * r3 + u3 * u3 + d3 * d3)
    + (a1 * b2 + a2 * b1) * (r1 * r2 + u1 * u2 + d1 * d2) + (a1 * b3 + a3 * b1) * (r1 * r3 + u1 * u3 + d1 * d3) + (a2 * b3 + a3 * b2) * (r2 * r3 + u2 * u3 + d2 * d3)); [ring|].
  rewrite E11, E12, E13, E22, E23, E33. ring.
Qed.
Lemma C48_look_at_ok_pf : forall (prof : profile) (from target : Point3 R) (up : Vector3 R), Indep3 up (Rsub3 target from) ->
  exists t, t3_look_at prof (XP3 from) (XP3 target) (XV3 up) = Ret (Ok t).
Proof.
  intros. eexists. now apply xt3_look_at.
Qed.
Lemma C48_look_at_frame_pf : forall (prof : profile) (from target : Point3 R) (up : Vector3 R) t, Indep3 up (Rsub3 target from) ->
  t3_look_at prof (XP3 from) (XP3 target) (XV3 up) = Ret (Ok t) ->
  t3_transform_point t (XP3 from) = p3_origin /\
  t3_transform_point t (XP3 target) = mkPoint3 (Fin 0) (Fin 0) (p3_distance (XP3 from) (XP3 target)) /\
  (exists y z : R, t3_transform_vector t (XV3 up) = mkVector3 (Fin 0) (Fin y) (Fin z) /\ 0 < y).
Proof.
  intros prof from target up t H E. rewrite xt3_look_at in E by assumption. injection E as <-.
  unfold t3_transform_point, t3_transform_vector. cbn [t3_forward]. rewrite !la_point, la_vector.
  destruct (la_up_facts from target up H) as (U1 & U2 & U3 & U4). split; [|split].
  - unfold Rsub3, Rdot3. xcbv. xeqs; ring.
  - rewrite U3, U4. unfold la_dir at 1. rewrite Runit_self by (eapply Indep3_nz2; eassumption).
    unfold p3_distance. rewrite xp3_sub. fold (Rsub3 target from). rewrite xv3_length. reflexivity.
  - eexists _, _. rewrite U1. split; [reflexivity | exact U2].
Qed.
Lemma C48_look_at_rigid_pf : forall (prof : profile) (from target : Point3 R) (up : Vector3 R) t, Indep3 up (Rsub3 target from) ->
  t3_look_at prof (XP3 from) (XP3 target) (XV3 up) = Ret (Ok t) ->
  forall (p q : Point3 R) (u v : Vector3 R),
  p3_distance (t3_transform_point t (XP3 p)) (t3_transform_point t (XP3 q)) = p3_distance (XP3 p) (XP3 q) /\
  v3_dot (t3_transform_vector t (XV3 u)) (t3_transform_vector t (XV3 v)) = v3_dot (XV3 u) (XV3 v) /\
  v3_cross (t3_transform_vector t (XV3 u)) (t3_transform_vector t (XV3 v)) = t3_transform_vector t (v3_cross (XV3 u) (XV3 v)).
Proof.
  intros prof from target up t H E p q u v. rewrite xt3_look_at in E by assumption. injection E as <-.
  pose proof (la_frame from target up H) as F.
  unfold t3_transform_point, t3_transform_vector. cbn [t3_forward].
  assert (D : forall u v : Vector3 R, v3_dot (m4_mul_vector (XM4 (la_fwd from target up)) (XV3 u)) (m4_mul_vector (XM4 (la_fwd from target up)) (XV3 v)) = v3_dot (XV3 u) (XV3 v)).
  { intros x y. rewrite !la_vector. rewrite !C20_dot_value_3d_pf. apply Fin_eq. now apply frame_dot_apply. }
  split; [|split].
  - unfold p3_distance, v3_length.
    replace (p3_sub (m4_mul_point (XM4 (la_fwd from target up)) (XP3 q)) (m4_mul_point (XM4 (la_fwd from target up)) (XP3 p))) with (m4_mul_vector (XM4 (la_fwd from target up)) (p3_sub (XP3 q) (XP3 p))).
    + rewrite !xp3_sub. now rewrite D.
    + symmetry. apply C51_affine_difference_3d_pf. repeat split.
  - apply D.
  - rewrite !la_vector, xv3_cross, frame_cross_apply by assumption. rewrite xv3_cross, la_vector. reflexivity.
Qed.
Lemma Indep3_dec_ex u v : Rcross u v <> Rzero3 -> Indep3 u v.
Proof.
  intros H s t H1 H2 H3. destruct u as [a b c], v as [x y z]. unfold Rcross, Rzero3 in H. cbn in *.
  assert (K : forall k, s * k = 0 -> t * k = 0 -> (s = 0 /\ t = 0) \/ k = 0).
  { intros k Ks Kt. apply Rmult_integral in Ks, Kt. destruct (Req_dec k 0); [tauto|]. left. tauto. }
  destruct (K (b * z - c * y)) as [G|G1]; [| |exact G|].
  - replace (s * (b * z - c * y)) with ((s * b + t * y) * z - (s * c + t * z) * y) by ring. rewrite H2, H3; ring.
  - replace (t * (b * z - c * y)) with ((s * c + t * z) * b - (s * b + t * y) * c) by ring. rewrite H2, H3; ring.
  - destruct (K (c * x - a * z)) as [G|G2]; [| |exact G|].
    + replace (s * (c * x - a * z)) with ((s * c + t * z) * x - (s * a + t * x) * z) by ring. rewrite H1, H3; ring.
    + replace (t * (c * x - a * z)) with ((s * a + t * x) * c - (s * c + t * z) * a) by ring. rewrite H1, H3; ring.
    + destruct (K (a * y - b * x)) as [G|G3]; [| |exact G|].
      * replace (s * (a * y - b * x)) with ((s * a + t * x) * y - (s * b + t * y) * x) by ring. rewrite H1, H2; ring.
      * replace (t * (a * y - b * x)) with ((s * b + t * y) * a - (s * a + t * x) * b) by ring. rewrite H1, H2; ring.
      * exfalso. apply H. rewrite G1, G2, G3. reflexivity.
Qed.
Lemma m3_left_inv (a b c : Matrix3x3 R) :
  m3_mul (XM3 a) (XM3 b) = m3_identity -> m3_mul (XM3 b) (XM3 c) = m3_identity -> XM3 a = XM3 c.
Proof.
  intros H1 H2. destruct (C37_product_algebra_3x3_pf a b c) as (As & _ & _).
  rewrite H1, H2 in As. rewrite (proj1 (proj2 (C37_product_algebra_3x3_pf c c c))) in As.
  rewrite (proj2 (proj2 (C37_product_algebra_3x3_pf a a a))) in As. auto.
Qed.
(* both directions, for finite matrices *)
Definition mutual3 (a b : Matrix3x3 R) : Prop := m3_mul (XM3 a) (XM3 b) = m3_identity /\ m3_mul (XM3 b) (XM3 a) = m3_identity.
Lemma mutual3_comp a a' b b' : mutual3 a a' -> mutual3 b b' ->
  mutual3 (m3_mul (O := R_ops) b a) (m3_mul (O := R_ops) a' b').
Proof.
  intros [A1 A2] [B1 B2]. unfold mutual3. rewrite <- !xm3_mul.
  assert (As : forall a b c, m3_mul (m3_mul (XM3 a) (XM3 b)) (XM3 c) = m3_mul (XM3 a) (m3_mul (XM3 b) (XM3 c))) by (intros; apply C37_product_algebra_3x3_pf).
  assert (Id : forall a, m3_mul (XM3 a) m3_identity = XM3 a) by (intros x; apply (C37_product_algebra_3x3_pf x x x)).
  assert (Il : forall a, m3_mul m3_identity (XM3 a) = XM3 a) by (intros x; apply (C37_product_algebra_3x3_pf x x x)).
  split.
  - rewrite (xm3_mul a' b'). rewrite As. rewrite <- (xm3_mul a' b'). rewrite <- (As a a' b'). rewrite A1, Il. exact B1.
  - rewrite (xm3_mul b a). rewrite As. rewrite <- (xm3_mul b a). rewrite <- (As b' b a). rewrite B2, Il. exact A2.
Qed.
Lemma m4_left_inv (a b c : Matrix4x4 R) :
  m4_mul (XM4 a) (XM4 b) = m4_identity -> m4_mul (XM4 b) (XM4 c) = m4_identity -> XM4 a = XM4 c.
Proof.
  intros H1 H2. destruct (C37_product_algebra_4x4_pf a b c) as (As & _ & _).
  rewrite H1, H2 in As. rewrite (proj1 (proj2 (C37_product_algebra_4x4_pf c c c))) in As.
  rewrite (proj2 (proj2 (C37_product_algebra_4x4_pf a a a))) in As. auto.
Qed.
(* both directions, for finite matrices *)
Definition mutual4 (a b : Matrix4x4 R) : Prop := m4_mul (XM4 a) (XM4 b) = m4_identity /\ m4_mul (XM4 b) (XM4 a) = m4_identity.
Lemma mutual4_comp a a' b b' : mutual4 a a' -> mutual4 b b' ->
  mutual4 (m4_mul (O := R_ops) b a) (m4_mul (O := R_ops) a' b').
Proof.
  intros [A1 A2] [B1 B2]. unfold mutual4. rewrite <- !xm4_mul.
  assert (As : forall a b c, m4_mul (m4_mul (XM4 a) (XM4 b)) (XM4 c) = m4_mul (XM4 a) (m4_mul (XM4 b) (XM4 c))) by (intros; apply C37_product_algebra_4x4_pf).
  assert (Id : forall a, m4_mul (XM4 a) m4_identity = XM4 a) by (intros x; apply (C37_product_algebra_4x4_pf x x x)).
  assert (Il : forall a, m4_mul m4_identity (XM4 a) = XM4 a) by (intros x; apply (C37_product_algebra_4x4_pf x x x)).
  split.
  - rewrite (xm4_mul a' b'). rewrite As. rewrite <- (xm4_mul a' b'). rewrite <- (As a a' b'). rewrite A1, Il. exact B1.
  - rewrite (xm4_mul b a). rewrite As. rewrite <- (xm4_mul b a). rewrite <- (As b' b a). rewrite B2, Il. exact A2.
Qed.
Lemma built2_finite ok t : Built2 ok t -> exists u, t = XT2 u /\ mutual3 (t2_forward u) (t2_inv u).
Proof.
  induction 1 as [|v|a|sx sy Hx Hy|s Hs|m t Hm Ht|t u Ht IHt Hu IHu|t Ht IHt].
  - exists (mkT2 (m3_identity (O := R_ops)) (m3_identity (O := R_ops))). split; [reflexivity|].
    split; rewrite xm3_mul, xm3_identity; apply f_equal; cbn [t2_forward t2_inv t3_forward t3_inv]; rcbv; meqs; ring.
  - exists (mkT2 (m3_translate (O := R_ops) v) (m3_translate (O := R_ops) (v2_neg (O := R_ops) v))). split; [reflexivity|].
    destruct v. split; rewrite xm3_mul, xm3_identity; apply f_equal; cbn [t2_forward t2_inv t3_forward t3_inv]; rcbv; meqs; ring.
  - exists (mkT2 (m3_rotate (O := R_ops) a) (m3_transpose (m3_rotate (O := R_ops) a))). split; [reflexivity|].
    split; rewrite xm3_mul, xm3_identity; apply f_equal; cbn [t2_forward t2_inv t3_forward t3_inv]; rcbv; meqs; ring [(scm a)].
  - exists (mkT2 (m3_scale (O := R_ops) sx sy) (m3_scale (O := R_ops) (1 / sx) (1 / sy))). split.
    + unfold t2_scale. cbn [srecip xreal_ops]. rewrite !xdiv_fin by assumption. reflexivity.
    + split; rewrite xm3_mul, xm3_identity; apply f_equal; cbn [t2_forward t2_inv t3_forward t3_inv]; rcbv; meqs; field; auto.
  - exists (mkT2 (m3_scale_uniform (O := R_ops) s) (m3_scale_uniform (O := R_ops) (1 / s))). split.
    + unfold t2_scale_uniform. cbn [srecip xreal_ops]. rewrite !xdiv_fin by assumption. reflexivity.
    + split; rewrite xm3_mul, xm3_identity; apply f_equal; cbn [t2_forward t2_inv t3_forward t3_inv]; rcbv; meqs; field; auto.
  - unfold t2_try_from in Ht. destruct (Req_dec (mat_det 3 (ent3 m)) 0) as [Z|Z].
    + rewrite xm3_inverse_err in Ht by assumption. discriminate.
    + rewrite xm3_inverse_ok in Ht by assumption. injection Ht as <-. exists (mkT2 m (Rinv3 m)). split; [reflexivity|]. exact (Rinv3_mul m Z).
  - destruct IHt as (t' & -> & Mt), IHu as (u' & -> & Mu).
    exists (mkT2 (m3_mul (O := R_ops) (t2_forward u') (t2_forward t')) (m3_mul (O := R_ops) (t2_inv t') (t2_inv u'))). split; [reflexivity|].
    now apply mutual3_comp.
  - destruct IHt as (t' & -> & Mt). exists (mkT2 (t2_inv t') (t2_forward t')). split; [reflexivity|]. destruct Mt; split; assumption.
Qed.
Lemma built3_finite ok t : Built3 ok t -> exists u, t = XT3 u /\ mutual4 (t3_forward u) (t3_inv u).
Proof.
  induction 1 as [|v|a|a|a|k a Hk|sx sy sz Hx Hy Hz|s Hs|prof from target up t Hi Ht|prof m t Hm Ht|t u Ht IHt Hu IHu|t Ht IHt].
  - exists (mkT3 (m4_identity (O := R_ops)) (m4_identity (O := R_ops))). split; [reflexivity|].
    split; rewrite xm4_mul, xm4_identity; apply f_equal; cbn [t2_forward t2_inv t3_forward t3_inv]; rcbv; meqs; ring.
  - exists (mkT3 (m4_translate (O := R_ops) v) (m4_translate (O := R_ops) (v3_neg (O := R_ops) v))). split; [reflexivity|].
    destruct v. split; rewrite xm4_mul, xm4_identity; apply f_equal; cbn [t2_forward t2_inv t3_forward t3_inv]; rcbv; meqs; ring.
  - exists (mkT3 (m4_rotate_x (O := R_ops) a) (m4_transpose (m4_rotate_x (O := R_ops) a))). split; [reflexivity|].
    split; rewrite xm4_mul, xm4_identity; apply f_equal; cbn [t2_forward t2_inv t3_forward t3_inv]; rcbv; meqs; ring [(scm a)].
  - exists (mkT3 (m4_rotate_y (O := R_ops) a) (m4_transpose (m4_rotate_y (O := R_ops) a))). split; [reflexivity|].
    split; rewrite xm4_mul, xm4_identity; apply f_equal; cbn [t2_forward t2_inv t3_forward t3_inv]; rcbv; meqs; ring [(scm a)].
  - exists (mkT3 (m4_rotate_z (O := R_ops) a) (m4_transpose (m4_rotate_z (O := R_ops) a))). split; [reflexivity|].
    split; rewrite xm4_mul, xm4_identity; apply f_equal; cbn [t2_forward t2_inv t3_forward t3_inv]; rcbv; meqs; ring [(scm a)].
  - exists (mkT3 (Raxis (Runit k) (sin a) (cos a)) (m4_transpose (Raxis (Runit k) (sin a) (cos a)))). split.
    + unfold t3_rotate_axis. rewrite xm4_rotate_axis by assumption. reflexivity.
    + cbn [t3_forward t3_inv]. pose proof (Runit_dot k Hk) as U. pose proof (scm a) as SC. revert SC. generalize (sin a) (cos a). intros s c SC.
      destruct (Runit k) as [x y z]. apply unit_z2 in U. unfold Raxis. cbn [v3x v3y v3z].
      split; rewrite xm4_mul, xm4_identity; apply f_equal; cbn [t2_forward t2_inv t3_forward t3_inv]; rcbv; meqs; ring [U SC].
  - exists (mkT3 (m4_scale (O := R_ops) sx sy sz) (m4_scale (O := R_ops) (1 / sx) (1 / sy) (1 / sz))). split.
    + unfold t3_scale. cbn [srecip xreal_ops]. rewrite !xdiv_fin by assumption. reflexivity.
    + split; rewrite xm4_mul, xm4_identity; apply f_equal; cbn [t2_forward t2_inv t3_forward t3_inv]; rcbv; meqs; field; auto.
  - exists (mkT3 (m4_scale_uniform (O := R_ops) s) (m4_scale_uniform (O := R_ops) (1 / s))). split.
    + unfold t3_scale_uniform. cbn [srecip xreal_ops]. rewrite !xdiv_fin by assumption. reflexivity.
    + split; rewrite xm4_mul, xm4_identity; apply f_equal; cbn [t2_forward t2_inv t3_forward t3_inv]; rcbv; meqs; field; auto.
  - rewrite xt3_look_at in Ht by assumption. injection Ht as <-. exists (mkT3 (la_fwd from target up) (la_inv from target up)). split; [reflexivity|].
    destruct (frame_mat _ _ _ from (la_frame from target up Hi)) as [HI _].
    change (m4_mul (O := R_ops) (la_fwd from target up) (la_inv from target up) = m4_identity (O := R_ops)) in HI.
    assert (H1 : m4_mul (XM4 (la_fwd from target up)) (XM4 (la_inv from target up)) = m4_identity) by (rewrite xm4_mul, HI; reflexivity).
    split; [exact H1 | exact (m4_inv_comm _ _ H1)].
  - unfold t3_try_from in Ht. destruct (Req_dec (mat_det 4 (ent4 m)) 0) as [Z|Z].
    + rewrite xm4_inverse_err in Ht by assumption. discriminate.
    + rewrite xm4_inverse_ok in Ht by assumption. injection Ht as <-. exists (mkT3 m (Rinv4 m)). split; [reflexivity|]. exact (Rinv4_mul m Z).
  - destruct IHt as (t' & -> & Mt), IHu as (u' & -> & Mu).
    exists (mkT3 (m4_mul (O := R_ops) (t3_forward u') (t3_forward t')) (m4_mul (O := R_ops) (t3_inv t') (t3_inv u'))). split; [reflexivity|].
    now apply mutual4_comp.
  - destruct IHt as (t' & -> & Mt). exists (mkT3 (t3_inv t') (t3_forward t')). split; [reflexivity|]. destruct Mt; split; assumption.
Qed.
(* images under products *)
Lemma apply_mul3 (a b : matrix) x r : mat_apply 3 (mat_mul 3 a b) x r = mat_apply 3 a (mat_apply 3 b x) r.
Proof. mred. ring. Qed.
Lemma apply_ext3 a b x r : (r < 3)%nat -> mat_eq 3 a b -> mat_apply 3 a x r = mat_apply 3 b x r.
Proof. intros Hr H. mred. rewrite !H by lia. reflexivity. Qed.
Lemma apply_scale3 (a : matrix) x s r : mat_apply 3 a (fun k => s * x k) r = s * mat_apply 3 a x r.
Proof. mred. ring. Qed.
Lemma apply_ext_x3 a x y r : (forall k, (k < 3)%nat -> x k = y k) -> mat_apply 3 a x r = mat_apply 3 a y r.
Proof. intros H. mred. rewrite !H by lia. reflexivity. Qed.
Lemma hom_dehom2 x k : x 2%nat <> 0 -> (k < 3)%nat -> hom2 (dehom2 x) k = / x 2%nat * x k.
Proof. intros H Hk. natcases3 k; mred; field; assumption. Qed.
Lemma apply_rm3 a b p r : (r < 3)%nat -> mat_apply 3 (ent3 (m3_mul (O := R_ops) a b)) p r = mat_apply 3 (ent3 a) (mat_apply 3 (ent3 b) p) r.
Proof. intros Hr. rewrite <- apply_mul3. apply apply_ext3; auto. intros i j Hi Hj. now apply rm3_mul_ent. Qed.
Lemma apply_id3 p r : (r < 3)%nat -> mat_apply 3 mat_id p r = p r.
Proof. intros Hr. natcases3 r; mred; ring. Qed.
(* weight and image of a composition *)
Lemma weight2_comp a b p : weight2 a p <> 0 -> weight2 (m3_mul (O := R_ops) b a) p = weight2 b (img2 a p) * weight2 a p.
Proof.
  intros H. unfold weight2 at 1 2. rewrite apply_rm3 by lia. unfold img2.
  rewrite (apply_ext_x3 (ent3 b) (hom2 _) (fun k => / weight2 a p * mat_apply 3 (ent3 a) (hom2 p) k)).
  - rewrite (apply_scale3 (ent3 b) (mat_apply 3 (ent3 a) (hom2 p))). generalize (mat_apply 3 (ent3 b) (mat_apply 3 (ent3 a) (hom2 p)) 2). intros z. field. exact H.
  - intros k Hk. now apply hom_dehom2.
Qed.
Lemma img2_comp a b p : weight2 a p <> 0 -> weight2 b (img2 a p) <> 0 -> img2 (m3_mul (O := R_ops) b a) p = img2 b (img2 a p).
Proof.
  intros H1 H2.
  assert (E : forall r, (r < 3)%nat -> mat_apply 3 (ent3 b) (hom2 (img2 a p)) r = / weight2 a p * mat_apply 3 (ent3 (m3_mul (O := R_ops) b a)) (hom2 p) r).
  { intros r Hr. rewrite apply_rm3 by assumption. unfold img2 at 1.
    rewrite (apply_ext_x3 (ent3 b) (hom2 _) (fun k => / weight2 a p * mat_apply 3 (ent3 a) (hom2 p) k)).
    - apply apply_scale3.
    - intros k Hk. now apply hom_dehom2. }
  unfold weight2 in H2. rewrite E in H2 by lia.
  change (dehom2 (mat_apply 3 (ent3 (m3_mul (O := R_ops) b a)) (hom2 p)) = dehom2 (mat_apply 3 (ent3 b) (hom2 (img2 a p)))).
  unfold dehom2. rewrite !E by lia.
  assert (W : mat_apply 3 (ent3 (m3_mul (O := R_ops) b a)) (hom2 p) 2 <> 0).
  { intros Z. apply H2. rewrite Z. ring. }
  f_equal; field; auto.
Qed.
Lemma img2_inverse a b p : mutual3 a b -> weight2 a p <> 0 -> weight2 b (img2 a p) <> 0 /\ img2 b (img2 a p) = p.
Proof.
  intros [_ M] H.
  pose proof (proj1 (id_mul3_iff b a) M) as I.
  assert (E : forall r, (r < 3)%nat -> mat_apply 3 (ent3 b) (hom2 (img2 a p)) r = / weight2 a p * hom2 p r).
  { intros r Hr. unfold img2 at 1.
    rewrite (apply_ext_x3 (ent3 b) (hom2 _) (fun k => / weight2 a p * mat_apply 3 (ent3 a) (hom2 p) k)).
    - rewrite apply_scale3, <- apply_mul3, (apply_ext3 _ _ _ _ Hr I), apply_id3 by assumption. reflexivity.
    - intros k Hk. now apply hom_dehom2. }
  split.
  - unfold weight2 at 1. rewrite E by lia. replace (hom2 p 2) with 1 by reflexivity. apply Rmult_integral_contrapositive. split; [now apply Rinv_neq_0_compat | lra].
  - change (dehom2 (mat_apply 3 (ent3 b) (hom2 (img2 a p))) = p). unfold dehom2. rewrite !E by lia. clear E I M. revert H. generalize (weight2 a p). intros w H. unfold hom2. cbn [nth]. destruct p. cbn. f_equal; field; assumption.
Qed.
Lemma XT2_inj t u : XT2 t = XT2 u -> t = u.
Proof.
  intros E. pose proof (f_equal t2_forward E) as E1. pose proof (f_equal t2_inv E) as E2. cbn [t2_forward t2_inv XT2] in E1, E2.
  apply XM3_inj in E1, E2. destruct t, u. cbn in *. now subst.
Qed.
(* images under products *)
Lemma apply_mul4 (a b : matrix) x r : mat_apply 4 (mat_mul 4 a b) x r = mat_apply 4 a (mat_apply 4 b x) r.
Proof. mred. ring. Qed.
Lemma apply_ext4 a b x r : (r < 4)%nat -> mat_eq 4 a b -> mat_apply 4 a x r = mat_apply 4 b x r.
Proof. intros Hr H. mred. rewrite !H by lia. reflexivity. Qed.
Lemma apply_scale4 (a : matrix) x s r : mat_apply 4 a (fun k => s * x k) r = s * mat_apply 4 a x r.
Proof. mred. ring. Qed.
Lemma apply_ext_x4 a x y r : (forall k, (k < 4)%nat -> x k = y k) -> mat_apply 4 a x r = mat_apply 4 a y r.
Proof. intros H. mred. rewrite !H by lia. reflexivity. Qed.
Lemma hom_dehom3 x k : x 3%nat <> 0 -> (k < 4)%nat -> hom3 (dehom3 x) k = / x 3%nat * x k.
Proof. intros H Hk. natcases4 k; mred; field; assumption. Qed.
Lemma apply_rm4 a b p r : (r < 4)%nat -> mat_apply 4 (ent4 (m4_mul (O := R_ops) a b)) p r = mat_apply 4 (ent4 a) (mat_apply 4 (ent4 b) p) r.
Proof. intros Hr. rewrite <- apply_mul4. apply apply_ext4; auto. intros i j Hi Hj. now apply rm4_mul_ent. Qed.
Lemma apply_id4 p r : (r < 4)%nat -> mat_apply 4 mat_id p r = p r.
Proof. intros Hr. natcases4 r; mred; ring. Qed.
(* weight and image of a composition *)
Lemma weight3_comp a b p : weight3 a p <> 0 -> weight3 (m4_mul (O := R_ops) b a) p = weight3 b (img3 a p) * weight3 a p.
Proof.
  intros H. unfold weight3 at 1 2. rewrite apply_rm4 by lia. unfold img3.
  rewrite (apply_ext_x4 (ent4 b) (hom3 _) (fun k => / weight3 a p * mat_apply 4 (ent4 a) (hom3 p) k)).
  - rewrite (apply_scale4 (ent4 b) (mat_apply 4 (ent4 a) (hom3 p))). generalize (mat_apply 4 (ent4 b) (mat_apply 4 (ent4 a) (hom3 p)) 3). intros z. field. exact H.
  - intros k Hk. now apply hom_dehom3.
Qed.
Lemma img3_comp a b p : weight3 a p <> 0 -> weight3 b (img3 a p) <> 0 -> img3 (m4_mul (O := R_ops) b a) p = img3 b (img3 a p).
Proof.
  intros H1 H2.
  assert (E : forall r, (r < 4)%nat -> mat_apply 4 (ent4 b) (hom3 (img3 a p)) r = / weight3 a p * mat_apply 4 (ent4 (m4_mul (O := R_ops) b a)) (hom3 p) r).
  { intros r Hr. rewrite apply_rm4 by assumption. unfold img3 at 1.
    rewrite (apply_ext_x4 (ent4 b) (hom3 _) (fun k => / weight3 a p * mat_apply 4 (ent4 a) (hom3 p) k)).
    - apply apply_scale4.
    - intros k Hk. now apply hom_dehom3. }
  unfold weight3 in H2. rewrite E in H2 by lia.
  change (dehom3 (mat_apply 4 (ent4 (m4_mul (O := R_ops) b a)) (hom3 p)) = dehom3 (mat_apply 4 (ent4 b) (hom3 (img3 a p)))).
  unfold dehom3. rewrite !E by lia.
  assert (W : mat_apply 4 (ent4 (m4_mul (O := R_ops) b a)) (hom3 p) 3 <> 0).
  { intros Z. apply H2. rewrite Z. ring. }
  f_equal; field; auto.
Qed.
Lemma img3_inverse a b p : mutual4 a b -> weight3 a p <> 0 -> weight3 b (img3 a p) <> 0 /\ img3 b (img3 a p) = p.
Proof.
  intros [_ M] H.
  pose proof (proj1 (id_mul4_iff b a) M) as I.
  assert (E : forall r, (r < 4)%nat -> mat_apply 4 (ent4 b) (hom3 (img3 a p)) r = / weight3 a p * hom3 p r).
  { intros r Hr. unfold img3 at 1.
    rewrite (apply_ext_x4 (ent4 b) (hom3 _) (fun k => / weight3 a p * mat_apply 4 (ent4 a) (hom3 p) k)).
    - rewrite apply_scale4, <- apply_mul4, (apply_ext4 _ _ _ _ Hr I), apply_id4 by assumption. reflexivity.
    - intros k Hk. now apply hom_dehom3. }
  split.
  - unfold weight3 at 1. rewrite E by lia. replace (hom3 p 3) with 1 by reflexivity. apply Rmult_integral_contrapositive. split; [now apply Rinv_neq_0_compat | lra].
  - change (dehom3 (mat_apply 4 (ent4 b) (hom3 (img3 a p))) = p). unfold dehom3. rewrite !E by lia. clear E I M. revert H. generalize (weight3 a p). intros w H. unfold hom3. cbn [nth]. destruct p. cbn. f_equal; field; assumption.
Qed.
Lemma XT3_inj t u : XT3 t = XT3 u -> t = u.
Proof.
  intros E. pose proof (f_equal t3_forward E) as E1. pose proof (f_equal t3_inv E) as E2. cbn [t3_forward t3_inv XT3] in E1, E2.
  apply XM4_inj in E1, E2. destruct t, u. cbn in *. now subst.
Qed.
Lemma C43_mutually_inverse_2d_pf : forall t : Transform2 xreal, Built2 (fun _ => True) t ->
  m3_mul (t2_forward t) (t2_inv t) = m3_identity /\ m3_mul (t2_inv t) (t2_forward t) = m3_identity /\
  (exists u : Transform2 R, t = XT2 u).
Proof.
  intros t H. destruct (built2_finite _ _ H) as (u & -> & M1 & M2). split; [exact M1|]. split; [exact M2|]. eauto.
Qed.
Lemma C43_mutually_inverse_3d_pf : forall t : Transform3 xreal, Built3 (fun _ => True) t ->
  m4_mul (t3_forward t) (t3_inv t) = m4_identity /\ m4_mul (t3_inv t) (t3_forward t) = m4_identity /\
  (exists u : Transform3 R, t = XT3 u).
Proof.
  intros t H. destruct (built3_finite _ _ H) as (u & -> & M1 & M2). split; [exact M1|]. split; [exact M2|]. eauto.
Qed.
Lemma C43_point_round_trip_2d_pf : forall (t : Transform2 R) (p : Point2 R), Built2 (fun _ => True) (XT2 t) -> weight2 (t2_forward t) p <> 0 ->
  t2_transform_point (t2_inverse (XT2 t)) (t2_transform_point (XT2 t) (XP2 p)) = XP2 p.
Proof.
  intros t p H W. destruct (built2_finite _ _ H) as (u & E & M).
  apply XT2_inj in E. subst u.
  unfold t2_transform_point. change (t2_forward (t2_inverse (XT2 t))) with (XM3 (t2_inv t)). change (t2_forward (XT2 t)) with (XM3 (t2_forward t)).
  rewrite xm2_point by assumption. destruct (img2_inverse _ _ p M W) as [W2 E2]. rewrite xm2_point by assumption. now rewrite E2.
Qed.
Lemma C43_point_round_trip_3d_pf : forall (t : Transform3 R) (p : Point3 R), Built3 (fun _ => True) (XT3 t) -> weight3 (t3_forward t) p <> 0 ->
  t3_transform_point (t3_inverse (XT3 t)) (t3_transform_point (XT3 t) (XP3 p)) = XP3 p.
Proof.
  intros t p H W. destruct (built3_finite _ _ H) as (u & E & M).
  apply XT3_inj in E. subst u.
  unfold t3_transform_point. change (t3_forward (t3_inverse (XT3 t))) with (XM4 (t3_inv t)). change (t3_forward (XT3 t)) with (XM4 (t3_forward t)).
  rewrite xm3_point by assumption. destruct (img3_inverse _ _ p M W) as [W2 E2]. rewrite xm3_point by assumption. now rewrite E2.
Qed.
Lemma affine2_mul a b : affine2 a -> affine2 b -> affine2 (m3_mul (O := R_ops) a b).
Proof. destruct a, b. unfold affine2. cbn. intros H1 H2. decompose [and] H1. decompose [and] H2. subst. repeat split; ring. Qed.
Lemma affine2_inv a b : mutual3 a b -> affine2 a -> affine2 b.
Proof.
  intros [M _] H. rewrite xm3_mul, xm3_identity in M. apply XM3_inj in M.
  destruct a, b. unfold affine2 in *. cbn in H |- *. decompose [and] H. subst.
  revert M. rcbv. intros M. injection M. intros. repeat split; lra.
Qed.
Lemma affine3_mul a b : affine3 a -> affine3 b -> affine3 (m4_mul (O := R_ops) a b).
Proof. destruct a, b. unfold affine3. cbn. intros H1 H2. decompose [and] H1. decompose [and] H2. subst. repeat split; ring. Qed.
Lemma affine3_inv a b : mutual4 a b -> affine3 a -> affine3 b.
Proof.
  intros [M _] H. rewrite xm4_mul, xm4_identity in M. apply XM4_inj in M.
  destruct a, b. unfold affine3 in *. cbn in H |- *. decompose [and] H. subst.
  revert M. rcbv. intros M. injection M. intros. repeat split; lra.
Qed.
Lemma built2_affine t : Built2 affine2 (XT2 t) -> affine2 (t2_forward t) /\ affine2 (t2_inv t).
Proof.
  intros H. assert (G : forall x, Built2 affine2 x -> forall t, x = XT2 t -> affine2 (t2_forward t)).
  { clear. intros x Hx t E. assert (Q : exists u, x = XT2 u /\ affine2 (t2_forward u) /\ affine2 (t2_inv u)).
    { clear t E. induction Hx as [|v|a|sx sy Hx Hy|s Hs|m t Hm Ht|t u Ht IHt Hu IHu|t Ht IHt].
      - exists (mkT2 (m3_identity (O := R_ops)) (m3_identity (O := R_ops))). repeat split.
      - exists (mkT2 (m3_translate (O := R_ops) v) (m3_translate (O := R_ops) (v2_neg (O := R_ops) v))). repeat split.
      - exists (mkT2 (m3_rotate (O := R_ops) a) (m3_transpose (m3_rotate (O := R_ops) a))). repeat split.
      - exists (mkT2 (m3_scale (O := R_ops) sx sy) (m3_scale (O := R_ops) (1 / sx) (1 / sy))). split; [|repeat split].
        unfold t2_scale. cbn [srecip xreal_ops]. rewrite !xdiv_fin by assumption. reflexivity.
      - exists (mkT2 (m3_scale_uniform (O := R_ops) s) (m3_scale_uniform (O := R_ops) (1 / s))). split; [|repeat split].
        unfold t2_scale_uniform. cbn [srecip xreal_ops]. rewrite !xdiv_fin by assumption. reflexivity.
      - destruct (built2_finite (fun _ => True) t (B2_try_from _ m t I Ht)) as (u & -> & M).
        exists u. split; [reflexivity|].
        assert (E : t2_forward u = m). { apply XM3_inj. apply (proj1 (t2_try_from_spec (XM3 m))) in Ht. destruct Ht as [_ Ht]. exact Ht. }
        rewrite E in *. split; [assumption|]. eapply affine2_inv; eassumption.
      - destruct IHt as (t' & -> & At & Bt), IHu as (u' & -> & Au & Bu).
        exists (mkT2 (m3_mul (O := R_ops) (t2_forward u') (t2_forward t')) (m3_mul (O := R_ops) (t2_inv t') (t2_inv u'))). split; [reflexivity|].
        split; apply affine2_mul; assumption.
      - destruct IHt as (t' & -> & At & Bt). exists (mkT2 (t2_inv t') (t2_forward t')). split; [reflexivity|]. split; assumption. }
    destruct Q as (u & -> & Q & _). apply XT2_inj in E. now subst. }
  split; [now apply (G _ H)|]. apply (G _ (B2_inverse _ _ H) (mkT2 (t2_inv t) (t2_forward t)) eq_refl).
Qed.
Lemma built3_affine t : Built3 affine3 (XT3 t) -> affine3 (t3_forward t) /\ affine3 (t3_inv t).
Proof.
  intros H. assert (G : forall x, Built3 affine3 x -> forall t, x = XT3 t -> affine3 (t3_forward t)).
  { clear. intros x Hx t E. assert (Q : exists u, x = XT3 u /\ affine3 (t3_forward u) /\ affine3 (t3_inv u)).
    { clear t E. induction Hx as [|v|a|a|a|k a Hk|sx sy sz Hx Hy Hz|s Hs|prof from target up t Hi Ht|prof m t Hm Ht|t u Ht IHt Hu IHu|t Ht IHt].
      - exists (mkT3 (m4_identity (O := R_ops)) (m4_identity (O := R_ops))). repeat split.
      - exists (mkT3 (m4_translate (O := R_ops) v) (m4_translate (O := R_ops) (v3_neg (O := R_ops) v))). repeat split.
      - exists (mkT3 (m4_rotate_x (O := R_ops) a) (m4_transpose (m4_rotate_x (O := R_ops) a))). repeat split.
      - exists (mkT3 (m4_rotate_y (O := R_ops) a) (m4_transpose (m4_rotate_y (O := R_ops) a))). repeat split.
      - exists (mkT3 (m4_rotate_z (O := R_ops) a) (m4_transpose (m4_rotate_z (O := R_ops) a))). repeat split.
      - exists (mkT3 (Raxis (Runit k) (sin a) (cos a)) (m4_transpose (Raxis (Runit k) (sin a) (cos a)))). split; [|repeat split].
        unfold t3_rotate_axis. rewrite xm4_rotate_axis by assumption. reflexivity.
      - exists (mkT3 (m4_scale (O := R_ops) sx sy sz) (m4_scale (O := R_ops) (1 / sx) (1 / sy) (1 / sz))). split; [|repeat split].
        unfold t3_scale. cbn [srecip xreal_ops]. rewrite !xdiv_fin by assumption. reflexivity.
      - exists (mkT3 (m4_scale_uniform (O := R_ops) s) (m4_scale_uniform (O := R_ops) (1 / s))). split; [|repeat split].
        unfold t3_scale_uniform. cbn [srecip xreal_ops]. rewrite !xdiv_fin by assumption. reflexivity.
      - rewrite xt3_look_at in Ht by assumption. injection Ht as <-. exists (mkT3 (la_fwd from target up) (la_inv from target up)). repeat split.
      - destruct (built3_finite (fun _ => True) t (B3_try_from _ prof m t I Ht)) as (u & -> & M).
        exists u. split; [reflexivity|].
        assert (E : t3_forward u = m). { apply XM4_inj. apply (proj1 (t3_try_from_spec prof (XM4 m))) in Ht. destruct Ht as [_ Ht]. exact Ht. }
        rewrite E in *. split; [assumption|]. eapply affine3_inv; eassumption.
      - destruct IHt as (t' & -> & At & Bt), IHu as (u' & -> & Au & Bu).
        exists (mkT3 (m4_mul (O := R_ops) (t3_forward u') (t3_forward t')) (m4_mul (O := R_ops) (t3_inv t') (t3_inv u'))). split; [reflexivity|].
        split; apply affine3_mul; assumption.
      - destruct IHt as (t' & -> & At & Bt). exists (mkT3 (t3_inv t') (t3_forward t')). split; [reflexivity|]. split; assumption. }
    destruct Q as (u & -> & Q & _). apply XT3_inj in E. now subst. }
  split; [now apply (G _ H)|]. apply (G _ (B3_inverse _ _ H) (mkT3 (t3_inv t) (t3_forward t)) eq_refl).
Qed.
Lemma built2_weaken ok t : Built2 ok t -> Built2 (fun _ => True) t.
Proof. induction 1; eauto using Built2. Qed.
Lemma built3_weaken ok t : Built3 ok t -> Built3 (fun _ => True) t.
Proof. induction 1; eauto using Built3. Qed.
Ltac vtrip2 := match goal with |- ?a * (?e * ?x + ?f * ?y) + ?b * (?g * ?x + ?h * ?y) = _ =>
  transitivity ((a * e + b * g) * x + (a * f + b * h) * y); [ring|];
  match goal with |- ?l * _ + ?m * _ = _ => let L := fresh in let M := fresh in
    first [assert (L : l = 1) by lra; assert (M : m = 0) by lra | assert (L : l = 0) by lra; assert (M : m = 1) by lra]; rewrite L, M; ring end end.
Ltac vtrip3 := match goal with |- ?a * (?e * ?x + ?f * ?y + ?g * ?z) + ?b * (?h * ?x + ?i * ?y + ?j * ?z) + ?c * (?k * ?x + ?l * ?y + ?m * ?z) = _ =>
  transitivity ((a * e + b * h + c * k) * x + (a * f + b * i + c * l) * y + (a * g + b * j + c * m) * z); [ring|];
  match goal with |- ?p * _ + ?q * _ + ?r * _ = _ => let L := fresh in let M := fresh in let N := fresh in
    first [assert (L : p = 1) by lra; assert (M : q = 0) by lra; assert (N : r = 0) by lra
          | assert (L : p = 0) by lra; assert (M : q = 1) by lra; assert (N : r = 0) by lra
          | assert (L : p = 0) by lra; assert (M : q = 0) by lra; assert (N : r = 1) by lra]; rewrite L, M, N; ring end end.
Lemma C43_affine_closed_2d_pf : forall t : Transform2 xreal, Built2 affine2 t ->
  exists u : Transform2 R, t = XT2 u /\ affine2 (t2_forward u) /\ affine2 (t2_inv u).
Proof.
  intros t H. destruct (built2_finite _ _ H) as (u & -> & _). exists u. split; [reflexivity|]. now apply built2_affine.
Qed.
Lemma C43_affine_closed_3d_pf : forall t : Transform3 xreal, Built3 affine3 t ->
  exists u : Transform3 R, t = XT3 u /\ affine3 (t3_forward u) /\ affine3 (t3_inv u).
Proof.
  intros t H. destruct (built3_finite _ _ H) as (u & -> & _). exists u. split; [reflexivity|]. now apply built3_affine.
Qed.
Lemma C43_affine_round_trip_2d_pf : forall (t : Transform2 xreal) (p : Point2 R) (v : Vector2 R) (r : Ray2 R), Built2 affine2 t ->
  t2_transform_point (t2_inverse t) (t2_transform_point t (XP2 p)) = XP2 p /\
  t2_transform_vector (t2_inverse t) (t2_transform_vector t (XV2 v)) = XV2 v /\
  t2_transform_ray (t2_inverse t) (t2_transform_ray t (XR2 r)) = XR2 r.
Proof.
  intros t p v r H. destruct (built2_finite _ _ H) as (u & -> & M). destruct (built2_affine u H) as [A B].
  assert (P : forall p, t2_transform_point (t2_inverse (XT2 u)) (t2_transform_point (XT2 u) (XP2 p)) = XP2 p).
  { intros q. apply C43_point_round_trip_2d_pf; [eapply built2_weaken; eassumption|]. rewrite affine_weight2 by assumption. lra. }
  assert (V : forall v, t2_transform_vector (t2_inverse (XT2 u)) (t2_transform_vector (XT2 u) (XV2 v)) = XV2 v).
  { intros w. destruct M as [_ M]. rewrite xm3_mul, xm3_identity in M. apply XM3_inj in M. clear - A B M.
    destruct u as [a b]. cbn [t2_forward t2_inv] in *. destruct a, b, w. unfold affine2 in *. cbn in A, B.
    decompose [and] A. decompose [and] B. subst. revert M. rcbv. intros M. injection M. clear M. intros. xcbv. xeqs; vtrip2. }
  split; [apply P|]. split; [apply V|]. unfold t2_transform_ray, r2_new. destruct r as [o d]. unfold XR2. cbn [r2_origin r2_direction]. now rewrite P, V.
Qed.
Lemma C43_affine_round_trip_3d_pf : forall (t : Transform3 xreal) (p : Point3 R) (v : Vector3 R) (r : Ray3 R), Built3 affine3 t ->
  t3_transform_point (t3_inverse t) (t3_transform_point t (XP3 p)) = XP3 p /\
  t3_transform_vector (t3_inverse t) (t3_transform_vector t (XV3 v)) = XV3 v /\
  t3_transform_ray (t3_inverse t) (t3_transform_ray t (XR3 r)) = XR3 r.
Proof.
  intros t p v r H. destruct (built3_finite _ _ H) as (u & -> & M). destruct (built3_affine u H) as [A B].
  assert (P : forall p, t3_transform_point (t3_inverse (XT3 u)) (t3_transform_point (XT3 u) (XP3 p)) = XP3 p).
  { intros q. apply C43_point_round_trip_3d_pf; [eapply built3_weaken; eassumption|]. rewrite affine_weight3 by assumption. lra. }
  assert (V : forall v, t3_transform_vector (t3_inverse (XT3 u)) (t3_transform_vector (XT3 u) (XV3 v)) = XV3 v).
  { intros w. destruct M as [_ M]. rewrite xm4_mul, xm4_identity in M. apply XM4_inj in M. clear - A B M.
    destruct u as [a b]. cbn [t3_forward t3_inv] in *. destruct a, b, w. unfold affine3 in *. cbn in A, B.
    decompose [and] A. decompose [and] B. subst. revert M. rcbv. intros M. injection M. clear M. intros. xcbv. xeqs; vtrip3. }
  split; [apply P|]. split; [apply V|]. unfold t3_transform_ray, r3_new. destruct r as [o d]. unfold XR3. cbn [r3_origin r3_direction]. now rewrite P, V.
Qed.
Lemma vec_comp2 (a b : Matrix3x3 R) (v : Vector2 R) : affine2 a ->
  m3_mul_vector (m3_mul (XM3 b) (XM3 a)) (XV2 v) = m3_mul_vector (XM3 b) (m3_mul_vector (XM3 a) (XV2 v)).
Proof. destruct a, b, v. unfold affine2. cbn -[m3_mul m3_mul_vector]. intros H. decompose [and] H. subst. xcbv. xeqs; ring. Qed.
Definition Rcomp2 (t u : Transform2 R) : Transform2 R :=
  mkT2 (m3_mul (O := R_ops) (t2_forward u) (t2_forward t)) (m3_mul (O := R_ops) (t2_inv t) (t2_inv u)).
Lemma xt2_and_then t u : t2_and_then (XT2 t) (XT2 u) = XT2 (Rcomp2 t u).
Proof. reflexivity. Qed.
Lemma vec_comp3 (a b : Matrix4x4 R) (v : Vector3 R) : affine3 a ->
  m4_mul_vector (m4_mul (XM4 b) (XM4 a)) (XV3 v) = m4_mul_vector (XM4 b) (m4_mul_vector (XM4 a) (XV3 v)).
Proof. destruct a, b, v. unfold affine3. cbn -[m4_mul m4_mul_vector]. intros H. decompose [and] H. subst. xcbv. xeqs; ring. Qed.
Definition Rcomp3 (t u : Transform3 R) : Transform3 R :=
  mkT3 (m4_mul (O := R_ops) (t3_forward u) (t3_forward t)) (m4_mul (O := R_ops) (t3_inv t) (t3_inv u)).
Lemma xt3_and_then t u : t3_and_then (XT3 t) (XT3 u) = XT3 (Rcomp3 t u).
Proof. reflexivity. Qed.
Lemma C44_and_then_point_2d_pf : forall (t u : Transform2 R) (p : Point2 R), weight2 (t2_forward t) p <> 0 -> weight2 (t2_forward u) (img2 (t2_forward t) p) <> 0 ->
  t2_transform_point (t2_and_then (XT2 t) (XT2 u)) (XP2 p) = t2_transform_point (XT2 u) (t2_transform_point (XT2 t) (XP2 p)).
Proof.
  intros t u p H1 H2. rewrite xt2_and_then. unfold t2_transform_point. cbn [t2_forward XT2 Rcomp2].
  rewrite (xm2_point (t2_forward t) p) by assumption. rewrite (xm2_point (t2_forward u) (img2 (t2_forward t) p)) by assumption.
  rewrite (xm2_point (m3_mul (O := R_ops) (t2_forward u) (t2_forward t)) p); [now rewrite img2_comp|]. rewrite weight2_comp by assumption. now apply Rmult_integral_contrapositive.
Qed.
Lemma C44_and_then_point_3d_pf : forall (t u : Transform3 R) (p : Point3 R), weight3 (t3_forward t) p <> 0 -> weight3 (t3_forward u) (img3 (t3_forward t) p) <> 0 ->
  t3_transform_point (t3_and_then (XT3 t) (XT3 u)) (XP3 p) = t3_transform_point (XT3 u) (t3_transform_point (XT3 t) (XP3 p)).
Proof.
  intros t u p H1 H2. rewrite xt3_and_then. unfold t3_transform_point. cbn [t3_forward XT3 Rcomp3].
  rewrite (xm3_point (t3_forward t) p) by assumption. rewrite (xm3_point (t3_forward u) (img3 (t3_forward t) p)) by assumption.
  rewrite (xm3_point (m4_mul (O := R_ops) (t3_forward u) (t3_forward t)) p); [now rewrite img3_comp|]. rewrite weight3_comp by assumption. now apply Rmult_integral_contrapositive.
Qed.
Lemma C44_and_then_affine_2d_pf : forall (t u : Transform2 R) (p : Point2 R) (v : Vector2 R) (r : Ray2 R), affine2 (t2_forward t) -> affine2 (t2_forward u) ->
  t2_transform_point (t2_and_then (XT2 t) (XT2 u)) (XP2 p) = t2_transform_point (XT2 u) (t2_transform_point (XT2 t) (XP2 p)) /\
  t2_transform_vector (t2_and_then (XT2 t) (XT2 u)) (XV2 v) = t2_transform_vector (XT2 u) (t2_transform_vector (XT2 t) (XV2 v)) /\
  t2_transform_ray (t2_and_then (XT2 t) (XT2 u)) (XR2 r) = t2_transform_ray (XT2 u) (t2_transform_ray (XT2 t) (XR2 r)).
Proof.
  intros t u p v r A B.
  assert (P : forall p, t2_transform_point (t2_and_then (XT2 t) (XT2 u)) (XP2 p) = t2_transform_point (XT2 u) (t2_transform_point (XT2 t) (XP2 p))).
  { intros q. apply C44_and_then_point_2d_pf; rewrite affine_weight2 by assumption; lra. }
  assert (V : forall v, t2_transform_vector (t2_and_then (XT2 t) (XT2 u)) (XV2 v) = t2_transform_vector (XT2 u) (t2_transform_vector (XT2 t) (XV2 v))).
  { intros w. now apply vec_comp2. }
  split; [apply P|]. split; [apply V|]. destruct r as [o d]. unfold t2_transform_ray, r2_new, XR2. cbn [r2_origin r2_direction].
  now rewrite P, V.
Qed.
Lemma C44_and_then_affine_3d_pf : forall (t u : Transform3 R) (p : Point3 R) (v : Vector3 R) (r : Ray3 R), affine3 (t3_forward t) -> affine3 (t3_forward u) ->
  t3_transform_point (t3_and_then (XT3 t) (XT3 u)) (XP3 p) = t3_transform_point (XT3 u) (t3_transform_point (XT3 t) (XP3 p)) /\
  t3_transform_vector (t3_and_then (XT3 t) (XT3 u)) (XV3 v) = t3_transform_vector (XT3 u) (t3_transform_vector (XT3 t) (XV3 v)) /\
  t3_transform_ray (t3_and_then (XT3 t) (XT3 u)) (XR3 r) = t3_transform_ray (XT3 u) (t3_transform_ray (XT3 t) (XR3 r)).
Proof.
  intros t u p v r A B.
  assert (P : forall p, t3_transform_point (t3_and_then (XT3 t) (XT3 u)) (XP3 p) = t3_transform_point (XT3 u) (t3_transform_point (XT3 t) (XP3 p))).
  { intros q. apply C44_and_then_point_3d_pf; rewrite affine_weight3 by assumption; lra. }
  assert (V : forall v, t3_transform_vector (t3_and_then (XT3 t) (XT3 u)) (XV3 v) = t3_transform_vector (XT3 u) (t3_transform_vector (XT3 t) (XV3 v))).
  { intros w. now apply vec_comp3. }
  split; [apply P|]. split; [apply V|]. destruct r as [o d]. unfold t3_transform_ray, r3_new, XR3. cbn [r3_origin r3_direction].
  now rewrite P, V.
Qed.
Lemma C44_and_then_vector_2d_pf : forall (t u : Transform2 R) (v : Vector2 R), affine2 (t2_forward t) ->
  t2_transform_vector (t2_and_then (XT2 t) (XT2 u)) (XV2 v) = t2_transform_vector (XT2 u) (t2_transform_vector (XT2 t) (XV2 v)).
Proof.
  intros t u v A. now apply vec_comp2.
Qed.
Lemma C44_and_then_vector_3d_pf : forall (t u : Transform3 R) (v : Vector3 R), affine3 (t3_forward t) ->
  t3_transform_vector (t3_and_then (XT3 t) (XT3 u)) (XV3 v) = t3_transform_vector (XT3 u) (t3_transform_vector (XT3 t) (XV3 v)).
Proof.
  intros t u v A. now apply vec_comp3.
Qed.
Lemma fold_point2 l : forall t p, weight2 (t2_forward t) p <> 0 -> path_ok2 l (img2 (t2_forward t) p) ->
  t2_transform_point (fold_left t2_and_then (map XT2 l) (XT2 t)) (XP2 p) =
  fold_left (fun q u => t2_transform_point u q) (map XT2 l) (t2_transform_point (XT2 t) (XP2 p)).
Proof.
  induction l as [|u l IH]; intros t p W H; [reflexivity|]. cbn [map fold_left]. destruct H as [Wu H].
  rewrite xt2_and_then, IH.
  - f_equal. rewrite <- xt2_and_then. now apply C44_and_then_point_2d_pf.
  - cbn [t2_forward Rcomp2]. rewrite weight2_comp by assumption. now apply Rmult_integral_contrapositive.
  - cbn [t2_forward Rcomp2]. now rewrite img2_comp.
Qed.
Lemma fold_ray2 l : forall t r, affine2 (t2_forward t) -> Forall (fun u => affine2 (t2_forward u)) l ->
  t2_transform_ray (fold_left t2_and_then (map XT2 l) (XT2 t)) (XR2 r) =
  fold_left (fun q u => t2_transform_ray u q) (map XT2 l) (t2_transform_ray (XT2 t) (XR2 r)).
Proof.
  induction l as [|u l IH]; intros t r W H; [reflexivity|]. cbn [map fold_left]. inversion H; subst.
  rewrite xt2_and_then, IH; [|now apply affine2_mul|assumption].
  f_equal. rewrite <- xt2_and_then. destruct r as [o d]. now apply (C44_and_then_affine_2d_pf t u o d (mkRay2 o d)).
Qed.
Lemma fold_vec2 l : forall t v, affine2 (t2_forward t) -> Forall (fun u => affine2 (t2_forward u)) l ->
  t2_transform_vector (fold_left t2_and_then (map XT2 l) (XT2 t)) (XV2 v) =
  fold_left (fun q u => t2_transform_vector u q) (map XT2 l) (t2_transform_vector (XT2 t) (XV2 v)).
Proof.
  induction l as [|u l IH]; intros t v W H; [reflexivity|]. cbn [map fold_left]. inversion H; subst.
  rewrite xt2_and_then, IH; [|now apply affine2_mul|assumption].
  f_equal. rewrite <- xt2_and_then. now apply C44_and_then_vector_2d_pf.
Qed.
Definition Rid2 : Transform2 R := mkT2 (m3_identity (O := R_ops)) (m3_identity (O := R_ops)).
Lemma Rid2_eq : t2_identity = XT2 Rid2.
Proof. reflexivity. Qed.
Lemma Rid2_affine : affine2 (t2_forward Rid2).
Proof. repeat split. Qed.
Lemma Rid2_img p : img2 (t2_forward Rid2) p = p.
Proof. rewrite img2_affine by apply Rid2_affine. destruct p. cbn. f_equal; ring. Qed.
Lemma fold_point3 l : forall t p, weight3 (t3_forward t) p <> 0 -> path_ok3 l (img3 (t3_forward t) p) ->
  t3_transform_point (fold_left t3_and_then (map XT3 l) (XT3 t)) (XP3 p) =
  fold_left (fun q u => t3_transform_point u q) (map XT3 l) (t3_transform_point (XT3 t) (XP3 p)).
Proof.
  induction l as [|u l IH]; intros t p W H; [reflexivity|]. cbn [map fold_left]. destruct H as [Wu H].
  rewrite xt3_and_then, IH.
  - f_equal. rewrite <- xt3_and_then. now apply C44_and_then_point_3d_pf.
  - cbn [t3_forward Rcomp3]. rewrite weight3_comp by assumption. now apply Rmult_integral_contrapositive.
  - cbn [t3_forward Rcomp3]. now rewrite img3_comp.
Qed.
Lemma fold_ray3 l : forall t r, affine3 (t3_forward t) -> Forall (fun u => affine3 (t3_forward u)) l ->
  t3_transform_ray (fold_left t3_and_then (map XT3 l) (XT3 t)) (XR3 r) =
  fold_left (fun q u => t3_transform_ray u q) (map XT3 l) (t3_transform_ray (XT3 t) (XR3 r)).
Proof.
  induction l as [|u l IH]; intros t r W H; [reflexivity|]. cbn [map fold_left]. inversion H; subst.
  rewrite xt3_and_then, IH; [|now apply affine3_mul|assumption].
  f_equal. rewrite <- xt3_and_then. destruct r as [o d]. now apply (C44_and_then_affine_3d_pf t u o d (mkRay3 o d)).
Qed.
Lemma fold_vec3 l : forall t v, affine3 (t3_forward t) -> Forall (fun u => affine3 (t3_forward u)) l ->
  t3_transform_vector (fold_left t3_and_then (map XT3 l) (XT3 t)) (XV3 v) =
  fold_left (fun q u => t3_transform_vector u q) (map XT3 l) (t3_transform_vector (XT3 t) (XV3 v)).
Proof.
  induction l as [|u l IH]; intros t v W H; [reflexivity|]. cbn [map fold_left]. inversion H; subst.
  rewrite xt3_and_then, IH; [|now apply affine3_mul|assumption].
  f_equal. rewrite <- xt3_and_then. now apply C44_and_then_vector_3d_pf.
Qed.
Definition Rid3 : Transform3 R := mkT3 (m4_identity (O := R_ops)) (m4_identity (O := R_ops)).
Lemma Rid3_eq : t3_identity = XT3 Rid3.
Proof. reflexivity. Qed.
Lemma Rid3_affine : affine3 (t3_forward Rid3).
Proof. repeat split. Qed.
Lemma Rid3_img p : img3 (t3_forward Rid3) p = p.
Proof. rewrite img3_affine by apply Rid3_affine. destruct p. cbn. f_equal; ring. Qed.
Lemma C44_composite_of_a_list_2d_pf : forall (l : list (Transform2 R)) (p : Point2 R), path_ok2 l p ->
  t2_transform_point (fold_left t2_and_then (map XT2 l) t2_identity) (XP2 p) =
  fold_left (fun q u => t2_transform_point u q) (map XT2 l) (XP2 p).
Proof.
  intros l p H. rewrite Rid2_eq, fold_point2.
  - f_equal. unfold t2_transform_point. cbn [t2_forward XT2]. rewrite xm2_point_affine by apply Rid2_affine. now rewrite Rid2_img.
  - rewrite affine_weight2 by apply Rid2_affine. lra.
  - now rewrite Rid2_img.
Qed.
Lemma C44_composite_of_a_list_3d_pf : forall (l : list (Transform3 R)) (p : Point3 R), path_ok3 l p ->
  t3_transform_point (fold_left t3_and_then (map XT3 l) t3_identity) (XP3 p) =
  fold_left (fun q u => t3_transform_point u q) (map XT3 l) (XP3 p).
Proof.
  intros l p H. rewrite Rid3_eq, fold_point3.
  - f_equal. unfold t3_transform_point. cbn [t3_forward XT3]. rewrite xm3_point_affine by apply Rid3_affine. now rewrite Rid3_img.
  - rewrite affine_weight3 by apply Rid3_affine. lra.
  - now rewrite Rid3_img.
Qed.
Lemma C44_composite_of_a_list_affine_2d_pf : forall (l : list (Transform2 R)) (p : Point2 R) (v : Vector2 R) (r : Ray2 R), Forall (fun u => affine2 (t2_forward u)) l ->
  t2_transform_point (fold_left t2_and_then (map XT2 l) t2_identity) (XP2 p) =
  fold_left (fun q u => t2_transform_point u q) (map XT2 l) (XP2 p) /\
  t2_transform_vector (fold_left t2_and_then (map XT2 l) t2_identity) (XV2 v) =
  fold_left (fun q u => t2_transform_vector u q) (map XT2 l) (XV2 v) /\
  t2_transform_ray (fold_left t2_and_then (map XT2 l) t2_identity) (XR2 r) =
  fold_left (fun q u => t2_transform_ray u q) (map XT2 l) (XR2 r).
Proof.
  intros l p v r H.
  assert (IV : forall w : Vector2 R, t2_transform_vector (XT2 Rid2) (XV2 w) = XV2 w).
  { intros w. destruct w. unfold Rid2. rcbv. xcbv. xeqs; ring. }
  assert (IP : forall w : Point2 R, t2_transform_point (XT2 Rid2) (XP2 w) = XP2 w).
  { intros w. unfold t2_transform_point. cbn [t2_forward XT2]. rewrite xm2_point_affine by apply Rid2_affine. now rewrite Rid2_img. }
  split; [|split].
  - apply C44_composite_of_a_list_2d_pf. clear - H. revert p. induction H as [|u l Hu H IH]; intros p; [exact I|]. cbn [path_ok2]. split; [|apply IH].
    rewrite affine_weight2 by assumption. lra.
  - rewrite Rid2_eq, fold_vec2 by (assumption || apply Rid2_affine). now rewrite IV.
  - rewrite Rid2_eq, fold_ray2 by (assumption || apply Rid2_affine). f_equal. destruct r as [o d].
    unfold t2_transform_ray, r2_new, XR2. cbn [r2_origin r2_direction]. now rewrite IP, IV.
Qed.
Lemma C44_composite_of_a_list_affine_3d_pf : forall (l : list (Transform3 R)) (p : Point3 R) (v : Vector3 R) (r : Ray3 R), Forall (fun u => affine3 (t3_forward u)) l ->
  t3_transform_point (fold_left t3_and_then (map XT3 l) t3_identity) (XP3 p) =
  fold_left (fun q u => t3_transform_point u q) (map XT3 l) (XP3 p) /\
  t3_transform_vector (fold_left t3_and_then (map XT3 l) t3_identity) (XV3 v) =
  fold_left (fun q u => t3_transform_vector u q) (map XT3 l) (XV3 v) /\
  t3_transform_ray (fold_left t3_and_then (map XT3 l) t3_identity) (XR3 r) =
  fold_left (fun q u => t3_transform_ray u q) (map XT3 l) (XR3 r).
Proof.
  intros l p v r H.
  assert (IV : forall w : Vector3 R, t3_transform_vector (XT3 Rid3) (XV3 w) = XV3 w).
  { intros w. destruct w. unfold Rid3. rcbv. xcbv. xeqs; ring. }
  assert (IP : forall w : Point3 R, t3_transform_point (XT3 Rid3) (XP3 w) = XP3 w).
  { intros w. unfold t3_transform_point. cbn [t3_forward XT3]. rewrite xm3_point_affine by apply Rid3_affine. now rewrite Rid3_img. }
  split; [|split].
  - apply C44_composite_of_a_list_3d_pf. clear - H. revert p. induction H as [|u l Hu H IH]; intros p; [exact I|]. cbn [path_ok3]. split; [|apply IH].
    rewrite affine_weight3 by assumption. lra.
  - rewrite Rid3_eq, fold_vec3 by (assumption || apply Rid3_affine). now rewrite IV.
  - rewrite Rid3_eq, fold_ray3 by (assumption || apply Rid3_affine). f_equal. destruct r as [o d].
    unfold t3_transform_ray, r3_new, XR3. cbn [r3_origin r3_direction]. now rewrite IP, IV.
Qed.
Lemma C46_ray_at_2d_pf : forall (t : Transform2 R) (r : Ray2 R) (s : R), affine2 (t2_forward t) ->
  r2_at (t2_transform_ray (XT2 t) (XR2 r)) (Fin s) = t2_transform_point (XT2 t) (r2_at (XR2 r) (Fin s)).
Proof.
  intros t [o d] s A. unfold t2_transform_ray, r2_new, r2_at, t2_transform_point, t2_transform_vector, XR2. cbn [r2_origin r2_direction t2_forward XT2].
  change (p2_add (XP2 o) (v2_mul (XV2 d) (Fin s))) with (XP2 (p2_add (O := R_ops) o (v2_mul (O := R_ops) d s))).
  rewrite !xm2_point_affine by assumption. rewrite !img2_affine by assumption. destruct (t2_forward t), o, d.
  unfold affine2 in A. cbn in A. decompose [and] A. subst. xcbv. cbn. xeqs; ring.
Qed.
Lemma C46_ray_at_3d_pf : forall (t : Transform3 R) (r : Ray3 R) (s : R), affine3 (t3_forward t) ->
  r3_at (t3_transform_ray (XT3 t) (XR3 r)) (Fin s) = t3_transform_point (XT3 t) (r3_at (XR3 r) (Fin s)).
Proof.
  intros t [o d] s A. unfold t3_transform_ray, r3_new, r3_at, t3_transform_point, t3_transform_vector, XR3. cbn [r3_origin r3_direction t3_forward XT3].
  change (p3_add (XP3 o) (v3_mul (XV3 d) (Fin s))) with (XP3 (p3_add (O := R_ops) o (v3_mul (O := R_ops) d s))).
  rewrite !xm3_point_affine by assumption. rewrite !img3_affine by assumption. destruct (t3_forward t), o, d.
  unfold affine3 in A. cbn in A. decompose [and] A. subst. xcbv. cbn. xeqs; ring.
Qed.
