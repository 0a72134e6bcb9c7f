(** Proofs: projective transforms keep segments, depth order and boxes in front of the camera (C116). *)
From Coq Require Import Bool NArith ZArith Reals List Lra Lia Psatz.
From Verif Require Import Scalar Types Vector2 Vector3 Point2 Point3 Ray BoundingBox2 BoundingBox3 Transform2 Transform3 Float
  XReal OrdLaws Arith SpecOrder SpecReal SpecBox SpecHull OrderProofs OrderBox XTac ExactBase ExactVec ExactMat ExactRot.
Import ListNotations.
Local Open Scope R_scope.
Lemma aff2_nn a b c lx hx ly hy x y : lx <= x <= hx -> ly <= y <= hy ->
  0 <= a * lx + b * ly + c -> 0 <= a * hx + b * ly + c -> 0 <= a * lx + b * hy + c -> 0 <= a * hx + b * hy + c -> 0 <= a * x + b * y + c.
Proof.
  intros X Y H1 H2 H3 H4.
  assert (Ax : a * lx <= a * x \/ a * hx <= a * x) by (destruct (Rle_dec 0 a); [left | right]; nra).
  assert (Ay : b * ly <= b * y \/ b * hy <= b * y) by (destruct (Rle_dec 0 b); [left | right]; nra).
  destruct Ax, Ay; lra.
Qed.
Lemma aff2_pos a b c lx hx ly hy x y : lx <= x <= hx -> ly <= y <= hy ->
  0 < a * lx + b * ly + c -> 0 < a * hx + b * ly + c -> 0 < a * lx + b * hy + c -> 0 < a * hx + b * hy + c -> 0 < a * x + b * y + c.
Proof.
  intros X Y H1 H2 H3 H4.
  assert (Ax : a * lx <= a * x \/ a * hx <= a * x) by (destruct (Rle_dec 0 a); [left | right]; nra).
  assert (Ay : b * ly <= b * y \/ b * hy <= b * y) by (destruct (Rle_dec 0 b); [left | right]; nra).
  destruct Ax, Ay; lra.
Qed.
Lemma seg_frac wp wq fp fq s : 0 < wp -> 0 < wq -> 0 < (1 - s) * wp + s * wq ->
  ((1 - s) * fp + s * fq) / ((1 - s) * wp + s * wq) = fp / wp + (fq / wq - fp / wp) * (s * wq / ((1 - s) * wp + s * wq)).
Proof. intros. field. lra. Qed.
Lemma seg_lambda wp wq s : 0 < wp -> 0 < wq -> 0 <= s <= 1 -> 0 < (1 - s) * wp + s * wq -> 0 <= s * wq / ((1 - s) * wp + s * wq) <= 1.
Proof.
  intros P Q S W. split; [apply Rmult_le_pos; [nra | left; now apply Rinv_0_lt_compat]|]. apply (Rmult_le_reg_r _ _ _ W). unfold Rdiv. rewrite Rmult_assoc, Rinv_l by lra. nra.
Qed.
Lemma seg_mono wp wq s r : 0 < wp -> 0 < wq -> s <= r -> 0 < (1 - s) * wp + s * wq -> 0 < (1 - r) * wp + r * wq -> s * wq / ((1 - s) * wp + s * wq) <= r * wq / ((1 - r) * wp + r * wq).
Proof.
  intros P Q S W V. assert (0 <= r * wq / ((1 - r) * wp + r * wq) - s * wq / ((1 - s) * wp + s * wq)); [|lra].
  replace (r * wq / ((1 - r) * wp + r * wq) - s * wq / ((1 - s) * wp + s * wq)) with ((r - s) * (wp * wq) / (((1 - r) * wp + r * wq) * ((1 - s) * wp + s * wq))) by (field; lra).
  apply Rmult_le_pos; [apply Rmult_le_pos; [lra | left; now apply Rmult_lt_0_compat]|]. left. apply Rinv_0_lt_compat. now apply Rmult_lt_0_compat.
Qed.
Definition cps2 (b : BoundingBox2 R) : list (Point2 R) := let lo := bb2_min b in let hi := bb2_max b in
  [mkPoint2 (p2x lo) (p2y lo); mkPoint2 (p2x hi) (p2y lo); mkPoint2 (p2x lo) (p2y hi); mkPoint2 (p2x hi) (p2y hi)].
Definition cps3 (b : BoundingBox3 R) : list (Point3 R) := let lo := bb3_min b in let hi := bb3_max b in
  [mkPoint3 (p3x lo) (p3y lo) (p3z lo); mkPoint3 (p3x hi) (p3y lo) (p3z lo); mkPoint3 (p3x lo) (p3y hi) (p3z lo); mkPoint3 (p3x hi) (p3y hi) (p3z lo);
   mkPoint3 (p3x lo) (p3y lo) (p3z hi); mkPoint3 (p3x hi) (p3y lo) (p3z hi); mkPoint3 (p3x lo) (p3y hi) (p3z hi); mkPoint3 (p3x hi) (p3y hi) (p3z hi)].
Lemma app2 M p r : mat_apply 3 M (hom2 p) r = M r 0%nat * p2x p + M r 1%nat * p2y p + M r 2%nat.
Proof. unfold mat_apply, hom2. cbn. ring. Qed.
Lemma app3 M p r : mat_apply 4 M (hom3 p) r = M r 0%nat * p3x p + M r 1%nat * p3y p + M r 2%nat * p3z p + M r 3%nat.
Proof. unfold mat_apply, hom3. cbn. ring. Qed.
Lemma lin2_nn M k r w b p : Rin2 p b -> (forall c, In c (cps2 b) -> 0 <= k * mat_apply 3 M (hom2 c) r + w * mat_apply 3 M (hom2 c) 2) -> 0 <= k * mat_apply 3 M (hom2 p) r + w * mat_apply 3 M (hom2 p) 2.
Proof.
  intros [X Y] H. pose proof (fun n c E => H c (nth_error_In (cps2 b) n E)) as G. pose proof (G 0%nat _ eq_refl) as H0. pose proof (G 1%nat _ eq_refl) as H1. pose proof (G 2%nat _ eq_refl) as H2. pose proof (G 3%nat _ eq_refl) as H3. clear G H.
  rewrite !app2 in *. cbn [p2x p2y] in *.
  pose proof (aff2_nn (k * M r 0%nat + w * M 2%nat 0%nat) (k * M r 1%nat + w * M 2%nat 1%nat) (k * M r 2%nat + w * M 2%nat 2%nat) _ _ _ _ _ _ X Y) as Q.
  assert (Z : forall x y, k * (M r 0%nat * x + M r 1%nat * y + M r 2%nat) + w * (M 2%nat 0%nat * x + M 2%nat 1%nat * y + M 2%nat 2%nat) = (k * M r 0%nat + w * M 2%nat 0%nat) * x + (k * M r 1%nat + w * M 2%nat 1%nat) * y + (k * M r 2%nat + w * M 2%nat 2%nat)) by (intros; ring).
  rewrite Z in *. apply Q; assumption.
Qed.
Lemma wgt2_pos m b p : Rin2 p b -> (forall c, In c (cps2 b) -> 0 < weight2 m c) -> 0 < weight2 m p.
Proof.
  intros [X Y] H. pose proof (fun n c E => H c (nth_error_In (cps2 b) n E)) as G. pose proof (G 0%nat _ eq_refl) as H0. pose proof (G 1%nat _ eq_refl) as H1. pose proof (G 2%nat _ eq_refl) as H2. pose proof (G 3%nat _ eq_refl) as H3. clear G H.
  unfold weight2 in *. rewrite !app2 in *. cbn [p2x p2y] in *. eapply aff2_pos; eassumption.
Qed.
Lemma aff3_split c z lz hz : lz <= z <= hz -> c * lz <= c * z \/ c * hz <= c * z.
Proof. intros. destruct (Rle_dec 0 c); [left | right]; nra. Qed.
Lemma aff3_nn a b c e lx hx ly hy lz hz x y z : lx <= x <= hx -> ly <= y <= hy -> lz <= z <= hz ->
  (forall u v w, (u = lx \/ u = hx) -> (v = ly \/ v = hy) -> (w = lz \/ w = hz) -> 0 <= a * u + b * v + c * w + e) -> 0 <= a * x + b * y + c * z + e.
Proof.
  intros X Y Z H. destruct (aff3_split c z lz hz Z) as [K|K].
  - assert (0 <= a * x + b * y + (c * lz + e)); [|lra]. apply (aff2_nn a b (c * lz + e) lx hx ly hy); try assumption; rewrite <- Rplus_assoc; apply H; tauto.
  - assert (0 <= a * x + b * y + (c * hz + e)); [|lra]. apply (aff2_nn a b (c * hz + e) lx hx ly hy); try assumption; rewrite <- Rplus_assoc; apply H; tauto.
Qed.
Lemma aff3_pos a b c e lx hx ly hy lz hz x y z : lx <= x <= hx -> ly <= y <= hy -> lz <= z <= hz ->
  (forall u v w, (u = lx \/ u = hx) -> (v = ly \/ v = hy) -> (w = lz \/ w = hz) -> 0 < a * u + b * v + c * w + e) -> 0 < a * x + b * y + c * z + e.
Proof.
  intros X Y Z H. destruct (aff3_split c z lz hz Z) as [K|K].
  - assert (0 < a * x + b * y + (c * lz + e)); [|lra]. apply (aff2_pos a b (c * lz + e) lx hx ly hy); try assumption; rewrite <- Rplus_assoc; apply H; tauto.
  - assert (0 < a * x + b * y + (c * hz + e)); [|lra]. apply (aff2_pos a b (c * hz + e) lx hx ly hy); try assumption; rewrite <- Rplus_assoc; apply H; tauto.
Qed.
Lemma cps3_mk (b : BoundingBox3 R) u v w : (u = p3x (bb3_min b) \/ u = p3x (bb3_max b)) -> (v = p3y (bb3_min b) \/ v = p3y (bb3_max b)) -> (w = p3z (bb3_min b) \/ w = p3z (bb3_max b)) -> In (mkPoint3 u v w) (cps3 b).
Proof. intros [->| ->] [->| ->] [->| ->]; cbn; tauto. Qed.
Lemma lin3_nn M k r w b p : Rin3 p b -> (forall c, In c (cps3 b) -> 0 <= k * mat_apply 4 M (hom3 c) r + w * mat_apply 4 M (hom3 c) 3) -> 0 <= k * mat_apply 4 M (hom3 p) r + w * mat_apply 4 M (hom3 p) 3.
Proof.
  intros (X & Y & Z) H. 
  assert (E : forall p, k * mat_apply 4 M (hom3 p) r + w * mat_apply 4 M (hom3 p) 3 = (k * M r 0%nat + w * M 3%nat 0%nat) * p3x p + (k * M r 1%nat + w * M 3%nat 1%nat) * p3y p + (k * M r 2%nat + w * M 3%nat 2%nat) * p3z p + (k * M r 3%nat + w * M 3%nat 3%nat)) by (intros; rewrite !app3; ring).
  rewrite E. apply (aff3_nn _ _ _ _ _ _ _ _ _ _ _ _ _ X Y Z). intros a c e Ha Hc He. pose proof (H _ (cps3_mk b a c e Ha Hc He)) as Q. rewrite E in Q. exact Q.
Qed.
Lemma wgt3_pos m b p : Rin3 p b -> (forall c, In c (cps3 b) -> 0 < weight3 m c) -> 0 < weight3 m p.
Proof.
  intros (X & Y & Z) H. unfold weight3 in *. rewrite app3. apply (aff3_pos _ _ _ _ _ _ _ _ _ _ _ _ _ X Y Z). intros a c e Ha Hc He. pose proof (H _ (cps3_mk b a c e Ha Hc He)) as Q. rewrite app3 in Q. exact Q.
Qed.
Lemma cps2_corners prof b : corners2 prof (XB2 b) = map XP2 (cps2 b).
Proof. destruct prof as [[] []]; reflexivity. Qed.
Lemma XP2_inj p q : XP2 p = XP2 q -> p = q.
Proof. destruct p, q. unfold XP2. cbn. congruence. Qed.
Lemma cps2_in prof b c : In (XP2 c) (corners2 prof (XB2 b)) <-> In c (cps2 b).
Proof. rewrite cps2_corners. split; [|apply in_map]. intros H. apply in_map_iff in H. destruct H as (c' & E & H). apply XP2_inj in E. now subst. Qed.
Definition mx2 (m : Matrix3x3 R) (p : Point2 R) (k : nat) : R := mat_apply 3 (ent3 m) (hom2 p) k.
Lemma img2_coord m p d : coord2 (XP2 (img2 m p)) d = Fin (mx2 m p (dim2_index d) / weight2 m p).
Proof. destruct d; reflexivity. Qed.
Lemma corner_img2 prof t b c : (forall c, In (XP2 c) (corners2 prof (XB2 b)) -> 0 < weight2 (t2_forward t) c) ->
  In c (map (t2_transform_point (XT2 t)) (corners2 prof (XB2 b))) -> exists q, In q (cps2 b) /\ 0 < weight2 (t2_forward t) q /\ c = XP2 (img2 (t2_forward t) q).
Proof.
  intros W H. apply in_map_iff in H. destruct H as (x & E & H). rewrite cps2_corners in H. apply in_map_iff in H. destruct H as (q & E' & H).
  exists q. pose proof (W q (proj2 (cps2_in prof b q) H)) as Wq. split; [exact H|]. split; [exact Wq|]. subst x c. apply xm2_point. lra.
Qed.
Lemma img_in2 prof t b c : (forall c, In (XP2 c) (corners2 prof (XB2 b)) -> 0 < weight2 (t2_forward t) c) ->
  In c (cps2 b) -> In (XP2 (img2 (t2_forward t) c)) (map (t2_transform_point (XT2 t)) (corners2 prof (XB2 b))).
Proof.
  intros W H. pose proof (W c (proj2 (cps2_in prof b c) H)) as Wq. replace (XP2 (img2 (t2_forward t) c)) with (t2_transform_point (XT2 t) (XP2 c)) by (apply xm2_point; lra).
  apply in_map. now apply cps2_in.
Qed.
Lemma hull2_props prof t b : (forall c, In (XP2 c) (corners2 prof (XB2 b)) -> 0 < weight2 (t2_forward t) c) ->
  let l := map (t2_transform_point (XT2 t)) (corners2 prof (XB2 b)) in Ordered2 (hull2 l) /\ tight2 l (hull2 l).
Proof.
  intros W l. apply (bb2_accumulate xreal_OrdLaws).
  - unfold l. rewrite cps2_corners. discriminate.
  - intros p H. destruct (corner_img2 prof t b p W H) as (q & _ & _ & ->). intros []; reflexivity.
Qed.
Lemma cps3_corners prof b : corners3 prof (XB3 b) = map XP3 (cps3 b).
Proof. destruct prof as [[] []]; reflexivity. Qed.
Lemma XP3_inj p q : XP3 p = XP3 q -> p = q.
Proof. destruct p, q. unfold XP3. cbn. congruence. Qed.
Lemma cps3_in prof b c : In (XP3 c) (corners3 prof (XB3 b)) <-> In c (cps3 b).
Proof. rewrite cps3_corners. split; [|apply in_map]. intros H. apply in_map_iff in H. destruct H as (c' & E & H). apply XP3_inj in E. now subst. Qed.
Definition mx3 (m : Matrix4x4 R) (p : Point3 R) (k : nat) : R := mat_apply 4 (ent4 m) (hom3 p) k.
Lemma img3_coord m p d : coord3 (XP3 (img3 m p)) d = Fin (mx3 m p (dim3_index d) / weight3 m p).
Proof. destruct d; reflexivity. Qed.
Lemma corner_img3 prof t b c : (forall c, In (XP3 c) (corners3 prof (XB3 b)) -> 0 < weight3 (t3_forward t) c) ->
  In c (map (t3_transform_point (XT3 t)) (corners3 prof (XB3 b))) -> exists q, In q (cps3 b) /\ 0 < weight3 (t3_forward t) q /\ c = XP3 (img3 (t3_forward t) q).
Proof.
  intros W H. apply in_map_iff in H. destruct H as (x & E & H). rewrite cps3_corners in H. apply in_map_iff in H. destruct H as (q & E' & H).
  exists q. pose proof (W q (proj2 (cps3_in prof b q) H)) as Wq. split; [exact H|]. split; [exact Wq|]. subst x c. apply xm3_point. lra.
Qed.
Lemma img_in3 prof t b c : (forall c, In (XP3 c) (corners3 prof (XB3 b)) -> 0 < weight3 (t3_forward t) c) ->
  In c (cps3 b) -> In (XP3 (img3 (t3_forward t) c)) (map (t3_transform_point (XT3 t)) (corners3 prof (XB3 b))).
Proof.
  intros W H. pose proof (W c (proj2 (cps3_in prof b c) H)) as Wq. replace (XP3 (img3 (t3_forward t) c)) with (t3_transform_point (XT3 t) (XP3 c)) by (apply xm3_point; lra).
  apply in_map. now apply cps3_in.
Qed.
Lemma hull3_props prof t b : (forall c, In (XP3 c) (corners3 prof (XB3 b)) -> 0 < weight3 (t3_forward t) c) ->
  let l := map (t3_transform_point (XT3 t)) (corners3 prof (XB3 b)) in Ordered3 (hull3 l) /\ tight3 l (hull3 l).
Proof.
  intros W l. apply (bb3_accumulate xreal_OrdLaws).
  - unfold l. rewrite cps3_corners. discriminate.
  - intros p H. destruct (corner_img3 prof t b p W H) as (q & _ & _ & ->). intros []; reflexivity.
Qed.
Lemma C116_corner_hull_2d_pf : forall (prof : profile) (t : Transform2 R) (b : BoundingBox2 R) (p : Point2 R),
  (forall c, In (XP2 c) (corners2 prof (XB2 b)) -> 0 < weight2 (t2_forward t) c) -> Rin2 p b ->
  bb2_is_inside (hull2 (map (t2_transform_point (XT2 t)) (corners2 prof (XB2 b)))) (t2_transform_point (XT2 t) (XP2 p)) = true.
Proof.
  intros prof t b p W I. pose proof (hull2_props prof t b W) as (O & T1 & T2 & T3 & T4). set (H := hull2 _) in *.
  assert (Wc : forall c, In c (cps2 b) -> 0 < weight2 (t2_forward t) c) by (intros c C; apply W; now apply cps2_in).
  pose proof (wgt2_pos _ _ _ I Wc) as Wp. unfold t2_transform_point at 1. cbn [XT2 t2_forward]. rewrite xm2_point by lra. apply bb2_is_inside_iff.
  assert (Q : forall c, In c (cps2 b) -> In2 (XP2 (img2 (t2_forward t) c)) H) by (intros c C; apply T1; now apply img_in2).
  split; intros d.
  - destruct (T3 d) as (q & Hq & Eq). destruct (corner_img2 prof t b q W Hq) as (q0 & Iq & Wq & ->). rewrite img2_coord in *.
    unfold Eqs in Eq. rewrite (ol_eq _ xreal_OrdLaws) in Eq. apply andb_true_iff in Eq. destruct Eq as [E1 E2].
    apply (ol_trans _ xreal_OrdLaws _ _ _ E1). apply xle_fin. set (lo := _ / _) in *.
    assert (G : forall c, In c (cps2 b) -> 0 <= 1 * mat_apply 3 (ent3 (t2_forward t)) (hom2 c) (dim2_index d) + (- lo) * mat_apply 3 (ent3 (t2_forward t)) (hom2 c) 2).
    { intros c C. destruct (Q c C) as [Q1 _]. pose proof (Q1 d) as Qd. rewrite img2_coord in Qd. pose proof (ol_trans _ xreal_OrdLaws _ _ _ E2 Qd) as K. apply xle_fin in K. pose proof (Wc c C) as P.
      apply (Rmult_le_compat_r _ _ _ (Rlt_le _ _ P)) in K. unfold Rdiv in K. rewrite Rmult_assoc, Rinv_l in K by lra. unfold mx2 in K. unfold weight2 in *. lra. }
    apply (lin2_nn _ _ _ _ _ _ I) in G. fold (mx2 (t2_forward t) p (dim2_index d)) in G. fold (weight2 (t2_forward t) p) in G.
    apply (Rmult_le_reg_r _ _ _ Wp). unfold Rdiv. rewrite Rmult_assoc, Rinv_l by lra. lra.
  - destruct (T4 d) as (q & Hq & Eq). destruct (corner_img2 prof t b q W Hq) as (q0 & Iq & Wq & ->). rewrite img2_coord in *.
    unfold Eqs in Eq. rewrite (ol_eq _ xreal_OrdLaws) in Eq. apply andb_true_iff in Eq. destruct Eq as [E1 E2].
    refine (ol_trans _ xreal_OrdLaws _ _ _ _ E2). apply xle_fin. set (hi := _ / weight2 _ q0) in *.
    assert (G : forall c, In c (cps2 b) -> 0 <= (-1) * mat_apply 3 (ent3 (t2_forward t)) (hom2 c) (dim2_index d) + hi * mat_apply 3 (ent3 (t2_forward t)) (hom2 c) 2).
    { intros c C. destruct (Q c C) as [_ Q1]. pose proof (Q1 d) as Qd. rewrite img2_coord in Qd. pose proof (ol_trans _ xreal_OrdLaws _ _ _ Qd E1) as K. apply xle_fin in K. pose proof (Wc c C) as P.
      apply (Rmult_le_compat_r _ _ _ (Rlt_le _ _ P)) in K. unfold Rdiv in K. rewrite Rmult_assoc, Rinv_l in K by lra. unfold mx2 in K. unfold weight2 in *. lra. }
    apply (lin2_nn _ _ _ _ _ _ I) in G. fold (mx2 (t2_forward t) p (dim2_index d)) in G. fold (weight2 (t2_forward t) p) in G.
    apply (Rmult_le_reg_r _ _ _ Wp). unfold Rdiv. rewrite Rmult_assoc, Rinv_l by lra. lra.
Qed.
Lemma C116_corner_hull_3d_pf : forall (prof : profile) (t : Transform3 R) (b : BoundingBox3 R) (p : Point3 R),
  (forall c, In (XP3 c) (corners3 prof (XB3 b)) -> 0 < weight3 (t3_forward t) c) -> Rin3 p b ->
  bb3_is_inside (hull3 (map (t3_transform_point (XT3 t)) (corners3 prof (XB3 b)))) (t3_transform_point (XT3 t) (XP3 p)) = true.
Proof.
  intros prof t b p W I. pose proof (hull3_props prof t b W) as (O & T1 & T2 & T3 & T4). set (H := hull3 _) in *.
  assert (Wc : forall c, In c (cps3 b) -> 0 < weight3 (t3_forward t) c) by (intros c C; apply W; now apply cps3_in).
  pose proof (wgt3_pos _ _ _ I Wc) as Wp. unfold t3_transform_point at 1. cbn [XT3 t3_forward]. rewrite xm3_point by lra. apply bb3_is_inside_iff.
  assert (Q : forall c, In c (cps3 b) -> In3 (XP3 (img3 (t3_forward t) c)) H) by (intros c C; apply T1; now apply img_in3).
  split; intros d.
  - destruct (T3 d) as (q & Hq & Eq). destruct (corner_img3 prof t b q W Hq) as (q0 & Iq & Wq & ->). rewrite img3_coord in *.
    unfold Eqs in Eq. rewrite (ol_eq _ xreal_OrdLaws) in Eq. apply andb_true_iff in Eq. destruct Eq as [E1 E2].
    apply (ol_trans _ xreal_OrdLaws _ _ _ E1). apply xle_fin. set (lo := _ / _) in *.
    assert (G : forall c, In c (cps3 b) -> 0 <= 1 * mat_apply 4 (ent4 (t3_forward t)) (hom3 c) (dim3_index d) + (- lo) * mat_apply 4 (ent4 (t3_forward t)) (hom3 c) 3).
    { intros c C. destruct (Q c C) as [Q1 _]. pose proof (Q1 d) as Qd. rewrite img3_coord in Qd. pose proof (ol_trans _ xreal_OrdLaws _ _ _ E2 Qd) as K. apply xle_fin in K. pose proof (Wc c C) as P.
      apply (Rmult_le_compat_r _ _ _ (Rlt_le _ _ P)) in K. unfold Rdiv in K. rewrite Rmult_assoc, Rinv_l in K by lra. unfold mx3 in K. unfold weight3 in *. lra. }
    apply (lin3_nn _ _ _ _ _ _ I) in G. fold (mx3 (t3_forward t) p (dim3_index d)) in G. fold (weight3 (t3_forward t) p) in G.
    apply (Rmult_le_reg_r _ _ _ Wp). unfold Rdiv. rewrite Rmult_assoc, Rinv_l by lra. lra.
  - destruct (T4 d) as (q & Hq & Eq). destruct (corner_img3 prof t b q W Hq) as (q0 & Iq & Wq & ->). rewrite img3_coord in *.
    unfold Eqs in Eq. rewrite (ol_eq _ xreal_OrdLaws) in Eq. apply andb_true_iff in Eq. destruct Eq as [E1 E2].
    refine (ol_trans _ xreal_OrdLaws _ _ _ _ E2). apply xle_fin. set (hi := _ / weight3 _ q0) in *.
    assert (G : forall c, In c (cps3 b) -> 0 <= (-1) * mat_apply 4 (ent4 (t3_forward t)) (hom3 c) (dim3_index d) + hi * mat_apply 4 (ent4 (t3_forward t)) (hom3 c) 3).
    { intros c C. destruct (Q c C) as [_ Q1]. pose proof (Q1 d) as Qd. rewrite img3_coord in Qd. pose proof (ol_trans _ xreal_OrdLaws _ _ _ Qd E1) as K. apply xle_fin in K. pose proof (Wc c C) as P.
      apply (Rmult_le_compat_r _ _ _ (Rlt_le _ _ P)) in K. unfold Rdiv in K. rewrite Rmult_assoc, Rinv_l in K by lra. unfold mx3 in K. unfold weight3 in *. lra. }
    apply (lin3_nn _ _ _ _ _ _ I) in G. fold (mx3 (t3_forward t) p (dim3_index d)) in G. fold (weight3 (t3_forward t) p) in G.
    apply (Rmult_le_reg_r _ _ _ Wp). unfold Rdiv. rewrite Rmult_assoc, Rinv_l by lra. lra.
Qed.
Lemma C116_hull_is_smallest_2d_pf : forall (prof : profile) (t : Transform2 R) (b : BoundingBox2 R) (c : BoundingBox2 xreal),
  (forall q, In (XP2 q) (corners2 prof (XB2 b)) -> 0 < weight2 (t2_forward t) q) ->
  (forall q, In q (corners2 prof (XB2 b)) -> bb2_is_inside c (t2_transform_point (XT2 t) q) = true) ->
  (forall q, bb2_is_inside (hull2 (map (t2_transform_point (XT2 t)) (corners2 prof (XB2 b)))) q = true -> bb2_is_inside c q = true) /\
  (forall p, Rin2 p b -> bb2_is_inside c (t2_transform_point (XT2 t) (XP2 p)) = true).
Proof.
  intros prof t b c W H. assert (G : forall q, bb2_is_inside (hull2 (map (t2_transform_point (XT2 t)) (corners2 prof (XB2 b)))) q = true -> bb2_is_inside c q = true).
  { intros q I. pose proof (hull2_props prof t b W) as (O & T1 & T2 & T3 & T4). apply bb2_is_inside_iff. apply bb2_is_inside_iff in I. revert q I. apply T2. intros p Hp. apply in_map_iff in Hp. destruct Hp as (x & <- & X). apply bb2_is_inside_iff. now apply H. }
  split; [exact G|]. intros p I. apply G. now apply C116_corner_hull_2d_pf.
Qed.
Lemma C116_hull_is_smallest_3d_pf : forall (prof : profile) (t : Transform3 R) (b : BoundingBox3 R) (c : BoundingBox3 xreal),
  (forall q, In (XP3 q) (corners3 prof (XB3 b)) -> 0 < weight3 (t3_forward t) q) ->
  (forall q, In q (corners3 prof (XB3 b)) -> bb3_is_inside c (t3_transform_point (XT3 t) q) = true) ->
  (forall q, bb3_is_inside (hull3 (map (t3_transform_point (XT3 t)) (corners3 prof (XB3 b)))) q = true -> bb3_is_inside c q = true) /\
  (forall p, Rin3 p b -> bb3_is_inside c (t3_transform_point (XT3 t) (XP3 p)) = true).
Proof.
  intros prof t b c W H. assert (G : forall q, bb3_is_inside (hull3 (map (t3_transform_point (XT3 t)) (corners3 prof (XB3 b)))) q = true -> bb3_is_inside c q = true).
  { intros q I. pose proof (hull3_props prof t b W) as (O & T1 & T2 & T3 & T4). apply bb3_is_inside_iff. apply bb3_is_inside_iff in I. revert q I. apply T2. intros p Hp. apply in_map_iff in Hp. destruct Hp as (x & <- & X). apply bb3_is_inside_iff. now apply H. }
  split; [exact G|]. intros p I. apply G. now apply C116_corner_hull_3d_pf.
Qed.
Lemma C116_culling_2d_pf : forall (prof : profile) (t : Transform2 R) (b : BoundingBox2 R) (v : BoundingBox2 xreal) (p : Point2 R),
  (forall c, In (XP2 c) (corners2 prof (XB2 b)) -> 0 < weight2 (t2_forward t) c) -> Ordered2 v ->
  bb2_overlaps (hull2 (map (t2_transform_point (XT2 t)) (corners2 prof (XB2 b)))) v = false -> Rin2 p b ->
  bb2_is_inside v (t2_transform_point (XT2 t) (XP2 p)) = false.
Proof.
  intros prof t b v p W V H I. apply not_true_is_false. intros K. pose proof (C116_corner_hull_2d_pf prof t b p W I) as J.
  assert (bb2_overlaps (hull2 (map (t2_transform_point (XT2 t)) (corners2 prof (XB2 b)))) v = true); [|congruence].
  apply (bb2_overlaps_iff xreal_OrdLaws); [exact (proj1 (hull2_props prof t b W)) | exact V |]. eexists. split; apply bb2_is_inside_iff; eassumption.
Qed.
Lemma C116_culling_3d_pf : forall (prof : profile) (t : Transform3 R) (b : BoundingBox3 R) (v : BoundingBox3 xreal) (p : Point3 R),
  (forall c, In (XP3 c) (corners3 prof (XB3 b)) -> 0 < weight3 (t3_forward t) c) -> Ordered3 v ->
  bb3_overlaps (hull3 (map (t3_transform_point (XT3 t)) (corners3 prof (XB3 b)))) v = false -> Rin3 p b ->
  bb3_is_inside v (t3_transform_point (XT3 t) (XP3 p)) = false.
Proof.
  intros prof t b v p W V H I. apply not_true_is_false. intros K. pose proof (C116_corner_hull_3d_pf prof t b p W I) as J.
  assert (bb3_overlaps (hull3 (map (t3_transform_point (XT3 t)) (corners3 prof (XB3 b)))) v = true); [|congruence].
  apply (bb3_overlaps_iff xreal_OrdLaws); [exact (proj1 (hull3_props prof t b W)) | exact V |]. eexists. split; apply bb3_is_inside_iff; eassumption.
Qed.
Definition seg2 (p q : Point2 R) (s : R) : Point2 R := mkPoint2 (p2x p + (p2x q - p2x p) * s) (p2y p + (p2y q - p2y p) * s).
Lemma seg2_at (p q : Point2 R) s : p2_add (XP2 p) (v2_mul (p2_sub (XP2 q) (XP2 p)) (Fin s)) = XP2 (seg2 p q s).
Proof. unfold seg2. xring. Qed.
Lemma seg2_app M p q s k : mat_apply 3 M (hom2 (seg2 p q s)) k = (1 - s) * mat_apply 3 M (hom2 p) k + s * mat_apply 3 M (hom2 q) k.
Proof. rewrite !app2. unfold seg2. cbn [p2x p2y]. ring. Qed.
Lemma dist_seg2 p q s : 0 <= s -> Rdist2 p (seg2 p q s) = s * Rdist2 p q.
Proof.
  intros H. unfold Rdist2, seg2. cbn [p2x p2y]. rewrite <- (sqrt_Rsqr s H) at 3. rewrite <- sqrt_mult_alt by apply Rle_0_sqr. f_equal. unfold Rsqr. ring.
Qed.
Definition seg3 (p q : Point3 R) (s : R) : Point3 R := mkPoint3 (p3x p + (p3x q - p3x p) * s) (p3y p + (p3y q - p3y p) * s) (p3z p + (p3z q - p3z p) * s).
Lemma seg3_at (p q : Point3 R) s : p3_add (XP3 p) (v3_mul (p3_sub (XP3 q) (XP3 p)) (Fin s)) = XP3 (seg3 p q s).
Proof. unfold seg3. xring. Qed.
Lemma seg3_app M p q s k : mat_apply 4 M (hom3 (seg3 p q s)) k = (1 - s) * mat_apply 4 M (hom3 p) k + s * mat_apply 4 M (hom3 q) k.
Proof. rewrite !app3. unfold seg3. cbn [p3x p3y p3z]. ring. Qed.
Lemma dist_seg3 p q s : 0 <= s -> Rdist3 p (seg3 p q s) = s * Rdist3 p q.
Proof.
  intros H. unfold Rdist3, seg3. cbn [p3x p3y p3z]. rewrite <- (sqrt_Rsqr s H) at 4. rewrite <- sqrt_mult_alt by apply Rle_0_sqr. f_equal. unfold Rsqr. ring.
Qed.
Lemma seg_weight2 m p q s : 0 < weight2 m p -> 0 < weight2 m q -> 0 <= s <= 1 -> 0 < (1 - s) * weight2 m p + s * weight2 m q.
Proof. intros P Q S. destruct (Rle_lt_dec s (1 / 2)); nra. Qed.
Lemma seg2_0 p q : seg2 p q 0 = p.
Proof. unfold seg2. rewrite !Rmult_0_r, !Rplus_0_r. now destruct p. Qed.
Lemma seg_w2 m p q s : 0 < weight2 m p -> 0 < weight2 m q -> 0 <= s <= 1 -> weight2 m (seg2 p q s) <> 0.
Proof. intros P Q S. pose proof (seg_weight2 m p q s P Q S). unfold weight2 at 1. rewrite seg2_app. unfold weight2 in *. lra. Qed.
Lemma img_seg2 m p q s : 0 < weight2 m p -> 0 < weight2 m q -> 0 <= s <= 1 ->
  img2 m (seg2 p q s) = seg2 (img2 m p) (img2 m q) (s * weight2 m q / ((1 - s) * weight2 m p + s * weight2 m q)).
Proof.
  intros P Q S. pose proof (seg_weight2 m p q s P Q S) as W. unfold img2 at 1. unfold dehom2. rewrite !seg2_app. unfold seg2 at 1. unfold img2, dehom2. cbn [p2x p2y].
  fold (weight2 m p) (weight2 m q). f_equal; now apply seg_frac.
Qed.
Lemma seg_weight3 m p q s : 0 < weight3 m p -> 0 < weight3 m q -> 0 <= s <= 1 -> 0 < (1 - s) * weight3 m p + s * weight3 m q.
Proof. intros P Q S. destruct (Rle_lt_dec s (1 / 2)); nra. Qed.
Lemma seg3_0 p q : seg3 p q 0 = p.
Proof. unfold seg3. rewrite !Rmult_0_r, !Rplus_0_r. now destruct p. Qed.
Lemma seg_w3 m p q s : 0 < weight3 m p -> 0 < weight3 m q -> 0 <= s <= 1 -> weight3 m (seg3 p q s) <> 0.
Proof. intros P Q S. pose proof (seg_weight3 m p q s P Q S). unfold weight3 at 1. rewrite seg3_app. unfold weight3 in *. lra. Qed.
Lemma img_seg3 m p q s : 0 < weight3 m p -> 0 < weight3 m q -> 0 <= s <= 1 ->
  img3 m (seg3 p q s) = seg3 (img3 m p) (img3 m q) (s * weight3 m q / ((1 - s) * weight3 m p + s * weight3 m q)).
Proof.
  intros P Q S. pose proof (seg_weight3 m p q s P Q S) as W. unfold img3 at 1. unfold dehom3. rewrite !seg3_app. unfold seg3 at 1. unfold img3, dehom3. cbn [p3x p3y p3z].
  fold (weight3 m p) (weight3 m q). f_equal; now apply seg_frac.
Qed.
Lemma C116_segments_2d_pf : forall (m : Matrix3x3 R) (p q : Point2 R) (s : R), 0 < weight2 m p -> 0 < weight2 m q -> 0 <= s <= 1 ->
  let l := s * weight2 m q / ((1 - s) * weight2 m p + s * weight2 m q) in
  let P := m3_mul_point (XM3 m) (XP2 p) in let Q := m3_mul_point (XM3 m) (XP2 q) in
  0 <= l <= 1 /\
  m3_mul_point (XM3 m) (p2_add (XP2 p) (v2_mul (p2_sub (XP2 q) (XP2 p)) (Fin s))) = p2_add P (v2_mul (p2_sub Q P) (Fin l)).
Proof.
  intros m p q s P Q S l P' Q'. pose proof (seg_weight2 m p q s P Q S) as W. split; [now apply seg_lambda|].
  unfold P', Q'. rewrite seg2_at, !xm2_point, seg2_at, img_seg2 by (first [assumption | lra | now apply seg_w2]). reflexivity.
Qed.
Lemma C116_segments_3d_pf : forall (m : Matrix4x4 R) (p q : Point3 R) (s : R), 0 < weight3 m p -> 0 < weight3 m q -> 0 <= s <= 1 ->
  let l := s * weight3 m q / ((1 - s) * weight3 m p + s * weight3 m q) in
  let P := m4_mul_point (XM4 m) (XP3 p) in let Q := m4_mul_point (XM4 m) (XP3 q) in
  0 <= l <= 1 /\
  m4_mul_point (XM4 m) (p3_add (XP3 p) (v3_mul (p3_sub (XP3 q) (XP3 p)) (Fin s))) = p3_add P (v3_mul (p3_sub Q P) (Fin l)).
Proof.
  intros m p q s P Q S l P' Q'. pose proof (seg_weight3 m p q s P Q S) as W. split; [now apply seg_lambda|].
  unfold P', Q'. rewrite seg3_at, !xm3_point, seg3_at, img_seg3 by (first [assumption | lra | now apply seg_w3]). reflexivity.
Qed.
Lemma C116_depth_order_2d_pf : forall (m : Matrix3x3 R) (p q : Point2 R) (s r : R), 0 < weight2 m p -> 0 < weight2 m q -> 0 <= s <= r -> r <= 1 ->
  let at_ x := m3_mul_point (XM3 m) (p2_add (XP2 p) (v2_mul (p2_sub (XP2 q) (XP2 p)) (Fin x))) in
  Le (p2_distance (at_ 0) (at_ s)) (p2_distance (at_ 0) (at_ r)).
Proof.
  intros m p q s r P Q S R1 at_. pose proof (seg_weight2 m p q s P Q ltac:(lra)) as Ws. pose proof (seg_weight2 m p q r P Q ltac:(lra)) as Wr.
  assert (E0 : at_ 0 = XP2 (img2 m p)). { unfold at_. rewrite seg2_at. rewrite seg2_0. apply xm2_point. lra. }
  assert (E : forall x, 0 <= x <= 1 -> at_ x = XP2 (seg2 (img2 m p) (img2 m q) (x * weight2 m q / ((1 - x) * weight2 m p + x * weight2 m q)))).
  { intros x X. unfold at_. pose proof (seg_weight2 m p q x P Q X) as Wx. rewrite seg2_at, xm2_point, img_seg2 by (first [assumption | lra | now apply seg_w2]). reflexivity. }
  rewrite E0, !E by lra. rewrite !C27_distance_value_2d_pf. apply xle_fin. pose proof (seg_lambda _ _ s P Q ltac:(lra) Ws) as Ls. pose proof (seg_lambda _ _ r P Q ltac:(lra) Wr) as Lr.
  rewrite !dist_seg2 by lra. apply Rmult_le_compat_r; [apply sqrt_pos | apply seg_mono; try assumption; lra].
Qed.
Lemma C116_depth_order_3d_pf : forall (m : Matrix4x4 R) (p q : Point3 R) (s r : R), 0 < weight3 m p -> 0 < weight3 m q -> 0 <= s <= r -> r <= 1 ->
  let at_ x := m4_mul_point (XM4 m) (p3_add (XP3 p) (v3_mul (p3_sub (XP3 q) (XP3 p)) (Fin x))) in
  Le (p3_distance (at_ 0) (at_ s)) (p3_distance (at_ 0) (at_ r)).
Proof.
  intros m p q s r P Q S R1 at_. pose proof (seg_weight3 m p q s P Q ltac:(lra)) as Ws. pose proof (seg_weight3 m p q r P Q ltac:(lra)) as Wr.
  assert (E0 : at_ 0 = XP3 (img3 m p)). { unfold at_. rewrite seg3_at. rewrite seg3_0. apply xm3_point. lra. }
  assert (E : forall x, 0 <= x <= 1 -> at_ x = XP3 (seg3 (img3 m p) (img3 m q) (x * weight3 m q / ((1 - x) * weight3 m p + x * weight3 m q)))).
  { intros x X. unfold at_. pose proof (seg_weight3 m p q x P Q X) as Wx. rewrite seg3_at, xm3_point, img_seg3 by (first [assumption | lra | now apply seg_w3]). reflexivity. }
  rewrite E0, !E by lra. rewrite !C27_distance_value_3d_pf. apply xle_fin. pose proof (seg_lambda _ _ s P Q ltac:(lra) Ws) as Ls. pose proof (seg_lambda _ _ r P Q ltac:(lra) Wr) as Lr.
  rewrite !dist_seg3 by lra. apply Rmult_le_compat_r; [apply sqrt_pos | apply seg_mono; try assumption; lra].
Qed.
(* a perspective view along x, from the origin *)
Definition persp2 : Transform2 R := mkT2 (mkM3 0 0 1  0 1 0  1 0 0) (mkM3 0 0 1  0 1 0  1 0 0).
Definition persp3 : Transform3 R := mkT3 (mkM4 0 0 0 1  0 1 0 0  0 0 1 0  1 0 0 0) (mkM4 0 0 0 1  0 1 0 0  0 0 1 0  1 0 0 0).
Definition pbox2 (lo hi : R) : BoundingBox2 R := mkBB2 (mkPoint2 lo 0) (mkPoint2 hi 1).
Definition pbox3 (lo hi : R) : BoundingBox3 R := mkBB3 (mkPoint3 lo 0 0) (mkPoint3 hi 1 1).
Lemma persp2_w x y : weight2 (t2_forward persp2) (mkPoint2 x y) = x. Proof. unfold weight2. rewrite app2. cbn. ring. Qed.
Lemma persp3_w x y z : weight3 (t3_forward persp3) (mkPoint3 x y z) = x. Proof. unfold weight3. rewrite app3. cbn. ring. Qed.
Lemma persp2_at x y : x <> 0 -> t2_transform_point (XT2 persp2) (XP2 (mkPoint2 x y)) = XP2 (mkPoint2 (1 / x) (y / x)).
Proof. intros H. unfold t2_transform_point, XT2. cbn [t2_forward]. change (XM3 _) with (XM3 (t2_forward persp2)). rewrite xm2_point by (rewrite persp2_w; exact H). f_equal. unfold img2, dehom2. rewrite !app2. cbn. f_equal; field; exact H. Qed.
Lemma persp3_at x y z : x <> 0 -> t3_transform_point (XT3 persp3) (XP3 (mkPoint3 x y z)) = XP3 (mkPoint3 (1 / x) (y / x) (z / x)).
Proof. intros H. unfold t3_transform_point, XT3. cbn [t3_forward]. change (XM4 _) with (XM4 (t3_forward persp3)). rewrite xm3_point by (rewrite persp3_w; exact H). f_equal. unfold img3, dehom3. rewrite !app3. cbn. f_equal; field; exact H. Qed.
Lemma C116_weights_are_needed_2d_pf : forall prof : profile, exists (t : Transform2 R) (b : BoundingBox2 R) (p : Point2 R), Rin2 p b /\ 0 < weight2 (t2_forward t) p /\
  (forall c, In (XP2 c) (corners2 prof (XB2 b)) -> weight2 (t2_forward t) c <> 0) /\
  bb2_is_inside (hull2 (map (t2_transform_point (XT2 t)) (corners2 prof (XB2 b)))) (t2_transform_point (XT2 t) (XP2 p)) = false.
Proof.
  intros prof. exists persp2, (pbox2 (-1) 2), (mkPoint2 (1 / 4) 0).
  split; [unfold Rin2, pbox2; cbn [p2x p2y bb2_min bb2_max]; lra|]. split; [rewrite persp2_w; lra|]. split.
  { intros c H. apply cps2_in in H. cbn in H. repeat (destruct H as [<- |H]; [rewrite persp2_w; lra|]). destruct H. }
  set (l := map _ _). assert (El : forall x, In x l -> exists c, In c (cps2 (pbox2 (-1) 2)) /\ x = t2_transform_point (XT2 persp2) (XP2 c)).
  { intros x X. unfold l in X. rewrite cps2_corners in X. apply in_map_iff in X. destruct X as (y & <- & Y). apply in_map_iff in Y. destruct Y as (c & <- & C). now exists c. }
  assert (K : forall x, In x l -> NoNaN2 x /\ In2 x (XB2 (mkBB2 (mkPoint2 (-1) (-1)) (mkPoint2 1 1)))).
  { intros x X. destruct (El x X) as (c & C & ->). clear - C. cbn in C. repeat (destruct C as [<- |C]; [rewrite persp2_at by lra; split; [intros []; reflexivity | split; intros []; cbn -[Rinv]; apply xle_fin; lra]|]). destruct C. }
  assert (T : tight2 l (hull2 l)). { apply (bb2_accumulate xreal_OrdLaws); [unfold l; rewrite cps2_corners; discriminate | intros x X; now apply K]. }
  apply not_true_is_false. intros I. apply bb2_is_inside_iff in I. destruct T as (_ & T & _). apply (T (XB2 (mkBB2 (mkPoint2 (-1) (-1)) (mkPoint2 1 1)))) in I; [|intros x X; now apply K].
  rewrite persp2_at in I by lra. destruct I as [_ I]. specialize (I D2X). cbn -[Rinv] in I. apply xle_fin in I. lra.
Qed.
Lemma C116_weights_are_needed_3d_pf : forall prof : profile, exists (t : Transform3 R) (b : BoundingBox3 R) (p : Point3 R), Rin3 p b /\ 0 < weight3 (t3_forward t) p /\
  (forall c, In (XP3 c) (corners3 prof (XB3 b)) -> weight3 (t3_forward t) c <> 0) /\
  bb3_is_inside (hull3 (map (t3_transform_point (XT3 t)) (corners3 prof (XB3 b)))) (t3_transform_point (XT3 t) (XP3 p)) = false.
Proof.
  intros prof. exists persp3, (pbox3 (-1) 2), (mkPoint3 (1 / 4) 0 0).
  split; [unfold Rin3, pbox3; cbn [p3x p3y p3z bb3_min bb3_max]; lra|]. split; [rewrite persp3_w; lra|]. split.
  { intros c H. apply cps3_in in H. cbn in H. repeat (destruct H as [<- |H]; [rewrite persp3_w; lra|]). destruct H. }
  set (l := map _ _). assert (El : forall x, In x l -> exists c, In c (cps3 (pbox3 (-1) 2)) /\ x = t3_transform_point (XT3 persp3) (XP3 c)).
  { intros x X. unfold l in X. rewrite cps3_corners in X. apply in_map_iff in X. destruct X as (y & <- & Y). apply in_map_iff in Y. destruct Y as (c & <- & C). now exists c. }
  assert (K : forall x, In x l -> NoNaN3 x /\ In3 x (XB3 (mkBB3 (mkPoint3 (-1) (-1) (-1)) (mkPoint3 1 1 1)))).
  { intros x X. destruct (El x X) as (c & C & ->). clear - C. cbn in C. repeat (destruct C as [<- |C]; [rewrite persp3_at by lra; split; [intros []; reflexivity | split; intros []; cbn -[Rinv]; apply xle_fin; lra]|]). destruct C. }
  assert (T : tight3 l (hull3 l)). { apply (bb3_accumulate xreal_OrdLaws); [unfold l; rewrite cps3_corners; discriminate | intros x X; now apply K]. }
  apply not_true_is_false. intros I. apply bb3_is_inside_iff in I. destruct T as (_ & T & _). apply (T (XB3 (mkBB3 (mkPoint3 (-1) (-1) (-1)) (mkPoint3 1 1 1)))) in I; [|intros x X; now apply K].
  rewrite persp3_at in I by lra. destruct I as [_ I]. specialize (I D3X). cbn -[Rinv] in I. apply xle_fin in I. lra.
Qed.
