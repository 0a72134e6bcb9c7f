(** Proofs for the transformation of bounding boxes (C47) and for degenerate look_at parameters (C49). *)
From Coq Require Import Bool NArith ZArith Reals List Lra Lia Psatz.
From Flocq Require Import Core.Raux.
From Verif Require Import Scalar Types Vector2 Vector3 Point2 Point3 Ray BoundingBox2 BoundingBox3 Transform2 Transform3
  XReal OrdLaws Arith SpecOrder SpecStruct SpecReal SpecBox SpecTrans XTac ExactBase ExactVec Adj4 ExactMat ExactRot ExactTrans ExactBox.
Import ListNotations.
Local Open Scope R_scope.
Lemma xmin_l o d : 0 <= d -> Rmin o (o + d) = o. Proof. intros. apply Rmin_left. lra. Qed.
Lemma xmin_r o d : d < 0 -> Rmin o (o + d) = o + d. Proof. intros. apply Rmin_right. lra. Qed.
Ltac rminmax := repeat match goal with
  | |- context [Rmin ?a ?b] => first [rewrite (Rmin_left a b) by lra | rewrite (Rmin_right a b) by lra]
  | |- context [Rmax ?a ?b] => first [rewrite (Rmax_left a b) by lra | rewrite (Rmax_right a b) by lra]
  end.
Lemma xp2_min p q : p2_min (XP2 p) (XP2 q) = XP2 (mkPoint2 (Rmin (p2x p) (p2x q)) (Rmin (p2y p) (p2y q))).
Proof. unfold p2_min, s_min, XP2, p2_new. cbn [p2x p2y sfmin xreal_ops]. now rewrite !xmin_fin. Qed.
Lemma xp2_max p q : p2_max (XP2 p) (XP2 q) = XP2 (mkPoint2 (Rmax (p2x p) (p2x q)) (Rmax (p2y p) (p2y q))).
Proof. unfold p2_max, s_max, XP2, p2_new. cbn [p2x p2y sfmax xreal_ops]. now rewrite !xmax_fin. Qed.
Lemma xt2_bb_gen (o : Point2 R) (d : Vector2 R) :
  (let body (st : Point2 xreal * Point2 xreal) (i : N) :=
    let (min_corner, max_corner) := st in
    let corner := XP2 o in
    let corner := if negb (N.land i 1 =? 0)%N then mkPoint2 (xadd (p2x corner) (Fin (v2x d))) (p2y corner) else corner in
    let corner := if negb (N.land i 2 =? 0)%N then mkPoint2 (p2x corner) (xadd (p2y corner) (Fin (v2y d))) else corner in
    (p2_min min_corner corner, p2_max max_corner corner) in
  let (min_corner, max_corner) := fold_left body [1; 2; 3]%N (XP2 o, XP2 o) in
  bb2_new min_corner max_corner) = bb2_new (XP2 o) (XP2 (mkPoint2 (p2x o + v2x d) (p2y o + v2y d))).
Proof.
  destruct o as [x y], d as [dx dy]. cbn [fold_left N.land Pos.land Pos.Ndouble Pos.Nsucc_double negb N.eqb Pos.eqb v2x v2y p2x p2y XP2 xadd].
  change (mkPoint2 (Fin x) (Fin y)) with (XP2 (mkPoint2 x y)). change (mkPoint2 (Fin (x + dx)) (Fin y)) with (XP2 (mkPoint2 (x + dx) y)).
  change (mkPoint2 (Fin x) (Fin (y + dy))) with (XP2 (mkPoint2 x (y + dy))). change (mkPoint2 (Fin (x + dx)) (Fin (y + dy))) with (XP2 (mkPoint2 (x + dx) (y + dy))).
  unfold bb2_new. repeat (rewrite xp2_min || rewrite xp2_max). cbn [p2x p2y].
  destruct (Rlt_le_dec dx 0), (Rlt_le_dec dy 0); rminmax; reflexivity.
Qed.
Lemma xt2_bb t b : affine2 (t2_forward t) ->
  t2_transform_bb (XT2 t) (XB2 b) = bb2_new (XP2 (img2 (t2_forward t) (bb2_min b))) (XP2 (img2 (t2_forward t) (bb2_max b))).
Proof.
  intros A. unfold t2_transform_bb. unfold t2_transform_point at 1. cbn [t2_forward XT2 bb2_min XB2].
  rewrite xm2_point_affine by assumption.
  set (o := img2 (t2_forward t) (bb2_min b)).
  set (d := mkVector2 (p2x (img2 (t2_forward t) (bb2_max b)) - p2x o) (p2y (img2 (t2_forward t) (bb2_max b)) - p2y o)).
  replace (t2_transform_vector (XT2 t) (bb2_diagonal (XB2 b))) with (XV2 d).
  - pose proof (xt2_bb_gen o d) as G. cbv zeta in G |- *. unfold t2_transform_point. cbn [t2_forward XT2 bb2_min XB2].
    rewrite xm2_point_affine by assumption. fold o. etransitivity; [exact G|]. unfold d. cbn [v2x v2y]. f_equal. f_equal.
    destruct (img2 (t2_forward t) (bb2_max b)). cbn. f_equal; ring.
  - symmetry. unfold t2_transform_vector, bb2_diagonal. cbn [t2_forward XT2 bb2_min bb2_max XB2].
    rewrite <- (C51_affine_difference_2d_pf (t2_forward t)) by assumption. rewrite !xm2_point_affine by assumption. apply xp2_sub.
Qed.
Lemma xp3_min p q : p3_min (XP3 p) (XP3 q) = XP3 (mkPoint3 (Rmin (p3x p) (p3x q)) (Rmin (p3y p) (p3y q)) (Rmin (p3z p) (p3z q))).
Proof. unfold p3_min, s_min, XP3, p3_new. cbn [p3x p3y p3z sfmin xreal_ops]. now rewrite !xmin_fin. Qed.
Lemma xp3_max p q : p3_max (XP3 p) (XP3 q) = XP3 (mkPoint3 (Rmax (p3x p) (p3x q)) (Rmax (p3y p) (p3y q)) (Rmax (p3z p) (p3z q))).
Proof. unfold p3_max, s_max, XP3, p3_new. cbn [p3x p3y p3z sfmax xreal_ops]. now rewrite !xmax_fin. Qed.
Lemma xt3_bb_gen (o : Point3 R) (d : Vector3 R) :
  (let body (st : Point3 xreal * Point3 xreal) (i : N) :=
    let (min_corner, max_corner) := st in
    let corner := XP3 o in
    let corner := if negb (N.land i 1 =? 0)%N then mkPoint3 (xadd (p3x corner) (Fin (v3x d))) (p3y corner) (p3z corner) else corner in
    let corner := if negb (N.land i 2 =? 0)%N then mkPoint3 (p3x corner) (xadd (p3y corner) (Fin (v3y d))) (p3z corner) else corner in
    let corner := if negb (N.land i 4 =? 0)%N then mkPoint3 (p3x corner) (p3y corner) (xadd (p3z corner) (Fin (v3z d))) else corner in
    (p3_min min_corner corner, p3_max max_corner corner) in
  let (min_corner, max_corner) := fold_left body [1; 2; 3; 4; 5; 6; 7]%N (XP3 o, XP3 o) in
  bb3_new min_corner max_corner) = bb3_new (XP3 o) (XP3 (mkPoint3 (p3x o + v3x d) (p3y o + v3y d) (p3z o + v3z d))).
Proof.
  destruct o as [x y z], d as [dx dy dz]. cbn [fold_left N.land Pos.land Pos.Ndouble Pos.Nsucc_double negb N.eqb Pos.eqb v3x v3y v3z p3x p3y p3z XP3 xadd].
  repeat match goal with |- context [mkPoint3 (Fin ?a) (Fin ?b) (Fin ?c)] => change (mkPoint3 (Fin a) (Fin b) (Fin c)) with (XP3 (mkPoint3 a b c)) end.
  unfold bb3_new. repeat (rewrite xp3_min || rewrite xp3_max). cbn [p3x p3y p3z].
  destruct (Rlt_le_dec dx 0), (Rlt_le_dec dy 0), (Rlt_le_dec dz 0); rminmax; reflexivity.
Qed.
Lemma xt3_bb t b : affine3 (t3_forward t) ->
  t3_transform_bb (XT3 t) (XB3 b) = bb3_new (XP3 (img3 (t3_forward t) (bb3_min b))) (XP3 (img3 (t3_forward t) (bb3_max b))).
Proof.
  intros A. unfold t3_transform_bb. unfold t3_transform_point at 1. cbn [t3_forward XT3 bb3_min XB3].
  rewrite xm3_point_affine by assumption.
  set (o := img3 (t3_forward t) (bb3_min b)).
  set (d := mkVector3 (p3x (img3 (t3_forward t) (bb3_max b)) - p3x o) (p3y (img3 (t3_forward t) (bb3_max b)) - p3y o) (p3z (img3 (t3_forward t) (bb3_max b)) - p3z o)).
  replace (t3_transform_vector (XT3 t) (bb3_diagonal (XB3 b))) with (XV3 d).
  - pose proof (xt3_bb_gen o d) as G. cbv zeta in G |- *. unfold t3_transform_point. cbn [t3_forward XT3 bb3_min XB3].
    rewrite xm3_point_affine by assumption. fold o. etransitivity; [exact G|]. unfold d. cbn [v3x v3y v3z]. f_equal. f_equal.
    destruct (img3 (t3_forward t) (bb3_max b)). cbn. f_equal; ring.
  - symmetry. unfold t3_transform_vector, bb3_diagonal. cbn [t3_forward XT3 bb3_min bb3_max XB3].
    rewrite <- (C51_affine_difference_3d_pf (t3_forward t)) by assumption. rewrite !xm3_point_affine by assumption. apply xp3_sub.
Qed.
Lemma C47_result_2d_pf : forall (t : Transform2 R) (b : BoundingBox2 R), affine2 (t2_forward t) ->
  t2_transform_bb (XT2 t) (XB2 b) = bb2_new (t2_transform_point (XT2 t) (XP2 (bb2_min b))) (t2_transform_point (XT2 t) (XP2 (bb2_max b))).
Proof.
  intros t b A. rewrite xt2_bb by assumption. unfold t2_transform_point. cbn [t2_forward XT2]. now rewrite !xm2_point_affine by assumption.
Qed.
Lemma C47_result_3d_pf : forall (t : Transform3 R) (b : BoundingBox3 R), affine3 (t3_forward t) ->
  t3_transform_bb (XT3 t) (XB3 b) = bb3_new (t3_transform_point (XT3 t) (XP3 (bb3_min b))) (t3_transform_point (XT3 t) (XP3 (bb3_max b))).
Proof.
  intros t b A. rewrite xt3_bb by assumption. unfold t3_transform_point. cbn [t3_forward XT3]. now rewrite !xm3_point_affine by assumption.
Qed.
Definition Rnew2 (p q : Point2 R) : BoundingBox2 R :=
  mkBB2 (mkPoint2 (Rmin (p2x p) (p2x q)) (Rmin (p2y p) (p2y q))) (mkPoint2 (Rmax (p2x p) (p2x q)) (Rmax (p2y p) (p2y q))).
Lemma xbb2_new p q : bb2_new (XP2 p) (XP2 q) = XB2 (Rnew2 p q).
Proof. unfold bb2_new. rewrite xp2_min, xp2_max. reflexivity. Qed.
Definition Rnew3 (p q : Point3 R) : BoundingBox3 R :=
  mkBB3 (mkPoint3 (Rmin (p3x p) (p3x q)) (Rmin (p3y p) (p3y q)) (Rmin (p3z p) (p3z q))) (mkPoint3 (Rmax (p3x p) (p3x q)) (Rmax (p3y p) (p3y q)) (Rmax (p3z p) (p3z q))).
Lemma xbb3_new p q : bb3_new (XP3 p) (XP3 q) = XB3 (Rnew3 p q).
Proof. unfold bb3_new. rewrite xp3_min, xp3_max. reflexivity. Qed.
(* one row, two columns: c + a*x + b*y for x in [x1,x2], y in [y1,y2] *)
Lemma between_row u v c : (Rmin (c + u) (c + v) <= c <= Rmax (c + u) (c + v)) <-> u * v <= 0.
Proof.
  unfold Rmin, Rmax. destruct (Rle_dec (c + u) (c + v)); split; intros H; nra.
Qed.
Lemma row2_iff a b c x1 x2 y1 y2 : x1 <= x2 -> y1 <= y2 ->
  ((forall x y, x1 <= x <= x2 -> y1 <= y <= y2 ->
     Rmin (a * x1 + b * y1 + c) (a * x2 + b * y2 + c) <= a * x + b * y + c <= Rmax (a * x1 + b * y1 + c) (a * x2 + b * y2 + c)) <->
   0 <= (a * (x2 - x1)) * (b * (y2 - y1))).
Proof.
  intros Hx Hy. split.
  - intros H. pose proof (H x2 y1 ltac:(lra) ltac:(lra)) as H1. pose proof (H x1 y2 ltac:(lra) ltac:(lra)) as H2. clear H.
    assert (K : forall p q o, Rmin o (o + p + q) <= o + p <= Rmax o (o + p + q) -> 0 <= p * q).
    { intros p q o. unfold Rmin, Rmax. destruct (Rle_dec o (o + p + q)); intros; nra. }
    apply (K (a * (x2 - x1)) (b * (y2 - y1)) (a * x1 + b * y1 + c)).
    replace (a * x1 + b * y1 + c + a * (x2 - x1) + b * (y2 - y1)) with (a * x2 + b * y2 + c) by ring.
    replace (a * x1 + b * y1 + c + a * (x2 - x1)) with (a * x2 + b * y1 + c) by ring. exact H1.
  - intros H x y Kx Ky.
    assert (M : (0 <= a * (x2 - x1) /\ 0 <= b * (y2 - y1)) \/ (a * (x2 - x1) <= 0 /\ b * (y2 - y1) <= 0)).
    { destruct (Rle_dec 0 (a * (x2 - x1))), (Rle_dec 0 (b * (y2 - y1))); try (left; lra); try (right; lra).
      - destruct (Req_dec (a * (x2 - x1)) 0); [right; lra|]. exfalso. nra.
      - destruct (Req_dec (b * (y2 - y1)) 0); [right; lra|]. exfalso. nra. }
    assert (S : forall a x1 x2 x, x1 <= x <= x2 -> (0 <= a * (x2 - x1) -> a * x1 <= a * x <= a * x2) /\ (a * (x2 - x1) <= 0 -> a * x2 <= a * x <= a * x1)).
    { clear. intros a x1 x2 x H. destruct (Req_dec x1 x2) as [->|N]; [replace x with x2 by lra; lra|].
      split; intros K.
      - assert (0 <= a) by nra. nra.
      - assert (a <= 0) by nra. nra. }
    pose proof (S a x1 x2 x Kx) as [Sx1 Sx2]. pose proof (S b y1 y2 y Ky) as [Sy1 Sy2].
    unfold Rmin, Rmax. destruct Rle_dec; destruct M as [[M1 M2]|[M1 M2]]; [specialize (Sx1 M1); specialize (Sy1 M2)|specialize (Sx2 M1); specialize (Sy2 M2)|specialize (Sx1 M1); specialize (Sy1 M2)|specialize (Sx2 M1); specialize (Sy2 M2)]; lra.
Qed.
Lemma row3_iff a b c e x1 x2 y1 y2 z1 z2 : x1 <= x2 -> y1 <= y2 -> z1 <= z2 ->
  ((forall x y z, x1 <= x <= x2 -> y1 <= y <= y2 -> z1 <= z <= z2 ->
     Rmin (a * x1 + b * y1 + c * z1 + e) (a * x2 + b * y2 + c * z2 + e) <= a * x + b * y + c * z + e <= Rmax (a * x1 + b * y1 + c * z1 + e) (a * x2 + b * y2 + c * z2 + e)) <->
   0 <= (a * (x2 - x1)) * (b * (y2 - y1)) /\ 0 <= (a * (x2 - x1)) * (c * (z2 - z1)) /\ 0 <= (b * (y2 - y1)) * (c * (z2 - z1))).
Proof.
  intros Hx Hy Hz. split.
  - intros H.
    assert (K : forall p q r o, Rmin o (o + p + q + r) <= o + p <= Rmax o (o + p + q + r) -> Rmin o (o + p + q + r) <= o + q <= Rmax o (o + p + q + r) -> Rmin o (o + p + q + r) <= o + r <= Rmax o (o + p + q + r) ->
      Rmin o (o + p + q + r) <= o + p + q <= Rmax o (o + p + q + r) -> Rmin o (o + p + q + r) <= o + p + r <= Rmax o (o + p + q + r) -> Rmin o (o + p + q + r) <= o + q + r <= Rmax o (o + p + q + r) ->
      0 <= p * q /\ 0 <= p * r /\ 0 <= q * r).
    { intros p q r o. unfold Rmin, Rmax. destruct (Rle_dec o (o + p + q + r)); intros H1 H2 H3 H4 H5 H6.
      - assert (0 <= p) by lra. assert (0 <= q) by lra. assert (0 <= r) by lra. repeat split; now apply Rmult_le_pos.
      - assert (P : 0 <= - p) by lra. assert (Q : 0 <= - q) by lra. assert (W : 0 <= - r) by lra.
        pose proof (Rmult_le_pos _ _ P Q). pose proof (Rmult_le_pos _ _ P W). pose proof (Rmult_le_pos _ _ Q W). lra. }
    apply (K _ _ _ (a * x1 + b * y1 + c * z1 + e)).
    all: replace (a * x1 + b * y1 + c * z1 + e + a * (x2 - x1) + b * (y2 - y1) + c * (z2 - z1)) with (a * x2 + b * y2 + c * z2 + e) by ring.
    + replace (a * x1 + b * y1 + c * z1 + e + a * (x2 - x1)) with (a * x2 + b * y1 + c * z1 + e) by ring. apply H; lra.
    + replace (a * x1 + b * y1 + c * z1 + e + b * (y2 - y1)) with (a * x1 + b * y2 + c * z1 + e) by ring. apply H; lra.
    + replace (a * x1 + b * y1 + c * z1 + e + c * (z2 - z1)) with (a * x1 + b * y1 + c * z2 + e) by ring. apply H; lra.
    + replace (a * x1 + b * y1 + c * z1 + e + a * (x2 - x1) + b * (y2 - y1)) with (a * x2 + b * y2 + c * z1 + e) by ring. apply H; lra.
    + replace (a * x1 + b * y1 + c * z1 + e + a * (x2 - x1) + c * (z2 - z1)) with (a * x2 + b * y1 + c * z2 + e) by ring. apply H; lra.
    + replace (a * x1 + b * y1 + c * z1 + e + b * (y2 - y1) + c * (z2 - z1)) with (a * x1 + b * y2 + c * z2 + e) by ring. apply H; lra.
  - intros (H1 & H2 & H3) x y z Kx Ky Kz.
    assert (S : forall a x1 x2 x, x1 <= x <= x2 -> (0 <= a * (x2 - x1) -> a * x1 <= a * x <= a * x2) /\ (a * (x2 - x1) <= 0 -> a * x2 <= a * x <= a * x1)).
    { clear. intros a x1 x2 x H. destruct (Req_dec x1 x2) as [->|N]; [replace x with x2 by lra; lra|].
      split; intros K.
      - assert (0 <= a) by nra. nra.
      - assert (a <= 0) by nra. nra. }
    pose proof (S a x1 x2 x Kx) as [Sx1 Sx2]. pose proof (S b y1 y2 y Ky) as [Sy1 Sy2]. pose proof (S c z1 z2 z Kz) as [Sz1 Sz2]. clear S.
    set (p := a * (x2 - x1)) in *. set (q := b * (y2 - y1)) in *. set (r := c * (z2 - z1)) in *.
    assert (Ep : a * x2 = a * x1 + p) by (unfold p; ring). assert (Eq : b * y2 = b * y1 + q) by (unfold q; ring). assert (Er : c * z2 = c * z1 + r) by (unfold r; ring).
    clearbody p q r.
    assert (M : (0 <= p /\ 0 <= q /\ 0 <= r) \/ (p <= 0 /\ q <= 0 /\ r <= 0)).
    { assert (G : forall u v, 0 <= u * v -> 0 < u -> 0 <= v). { intros u v Huv Hu. destruct (Rle_dec 0 v); [assumption|]. exfalso. assert (0 < u * - v) by (apply Rmult_lt_0_compat; lra). lra. }
      assert (L : forall u v, 0 <= u * v -> u < 0 -> v <= 0). { intros u v Huv Hu. destruct (Rle_dec v 0); [assumption|]. exfalso. assert (0 < - u * v) by (apply Rmult_lt_0_compat; lra). lra. }
      destruct (total_order_T p 0) as [[P|P]|P].
      - right. pose proof (L _ _ H1 P). pose proof (L _ _ H2 P). lra.
      - destruct (total_order_T q 0) as [[Q|Q]|Q].
        + right. pose proof (L _ _ H3 Q). lra.
        + destruct (Rle_dec 0 r); [left|right]; lra.
        + left. pose proof (G _ _ H3 Q). lra.
      - left. pose proof (G _ _ H1 P). pose proof (G _ _ H2 P). lra. }
    unfold Rmin, Rmax. destruct Rle_dec; destruct M as [(M1 & M2 & M3)|(M1 & M2 & M3)];
      first [specialize (Sx1 M1); specialize (Sy1 M2); specialize (Sz1 M3); lra | specialize (Sx2 M1); specialize (Sy2 M2); specialize (Sz2 M3); lra].
Qed.
Lemma C47_containment_iff_2d_pf : forall (t : Transform2 R) (b : BoundingBox2 R), affine2 (t2_forward t) -> Rordered2 b ->
  ((forall p, Rin2 p b -> bb2_is_inside (t2_transform_bb (XT2 t) (XB2 b)) (t2_transform_point (XT2 t) (XP2 p)) = true) <->
   same_direction2 (t2_forward t) b).
Proof.
  intros t b A [Ox Oy]. rewrite xt2_bb by assumption. unfold t2_transform_point. cbn [t2_forward XT2]. set (m := t2_forward t) in *. clearbody m.
  rewrite xbb2_new. unfold same_direction2.
  rewrite <- (row2_iff (m3_0 m) (m3_1 m) (m3_2 m) _ _ _ _ Ox Oy), <- (row2_iff (m3_3 m) (m3_4 m) (m3_5 m) _ _ _ _ Ox Oy).
  split.
  - intros H. split; intros x y Hx Hy; specialize (H (mkPoint2 x y) (conj Hx Hy)); rewrite xm2_point_affine, xle_iff2_inside in H by assumption;
      unfold Rin2, Rnew2 in H; rewrite !img2_affine in H by assumption; cbn [p2x p2y bb2_min bb2_max] in H; tauto.
  - intros [H1 H2] [x y] [Hx Hy]. rewrite xm2_point_affine, xle_iff2_inside by assumption. unfold Rin2, Rnew2. rewrite !img2_affine by assumption. cbn [p2x p2y bb2_min bb2_max] in *. split; auto.
Qed.
Lemma C47_containment_iff_3d_pf : forall (t : Transform3 R) (b : BoundingBox3 R), affine3 (t3_forward t) -> Rordered3 b ->
  ((forall p, Rin3 p b -> bb3_is_inside (t3_transform_bb (XT3 t) (XB3 b)) (t3_transform_point (XT3 t) (XP3 p)) = true) <->
   same_direction3 (t3_forward t) b).
Proof.
  intros t b A (Ox & Oy & Oz). rewrite xt3_bb by assumption. unfold t3_transform_point. cbn [t3_forward XT3]. set (m := t3_forward t) in *. clearbody m.
  rewrite xbb3_new. unfold same_direction3.
  rewrite <- (row3_iff (m4_0 m) (m4_1 m) (m4_2 m) (m4_3 m) _ _ _ _ _ _ Ox Oy Oz), <- (row3_iff (m4_4 m) (m4_5 m) (m4_6 m) (m4_7 m) _ _ _ _ _ _ Ox Oy Oz), <- (row3_iff (m4_8 m) (m4_9 m) (m4_10 m) (m4_11 m) _ _ _ _ _ _ Ox Oy Oz).
  split.
  - intros H. split; [|split]; intros x y z Hx Hy Hz; specialize (H (mkPoint3 x y z) (conj Hx (conj Hy Hz))); rewrite xm3_point_affine, xle_iff3_inside in H by assumption;
      unfold Rin3, Rnew3 in H; rewrite !img3_affine in H by assumption; cbn [p3x p3y p3z bb3_min bb3_max] in H; tauto.
  - intros (H1 & H2 & H3) [x y z] (Hx & Hy & Hz). rewrite xm3_point_affine, xle_iff3_inside by assumption. unfold Rin3, Rnew3. rewrite !img3_affine by assumption. cbn [p3x p3y p3z bb3_min bb3_max] in *. split; [|split]; auto.
Qed.
Lemma C47_translate_scale_2d_pf : forall (t : Transform2 R) (b : BoundingBox2 R) (p : Point2 R), affine2 (t2_forward t) ->
  m3_1 (t2_forward t) = 0 -> m3_3 (t2_forward t) = 0 -> Rin2 p b ->
  bb2_is_inside (t2_transform_bb (XT2 t) (XB2 b)) (t2_transform_point (XT2 t) (XP2 p)) = true.
Proof.
  intros t b p A Z1 Z2 H. apply C47_containment_iff_2d_pf; auto.
  - unfold Rin2, Rordered2 in *. lra.
  - unfold same_direction2. rewrite Z1, Z2. split; right; ring.
Qed.
Lemma C47_translate_scale_3d_pf : forall (t : Transform3 R) (b : BoundingBox3 R) (p : Point3 R), affine3 (t3_forward t) ->
  m4_1 (t3_forward t) = 0 -> m4_2 (t3_forward t) = 0 -> m4_4 (t3_forward t) = 0 -> m4_6 (t3_forward t) = 0 ->
  m4_8 (t3_forward t) = 0 -> m4_9 (t3_forward t) = 0 -> Rin3 p b ->
  bb3_is_inside (t3_transform_bb (XT3 t) (XB3 b)) (t3_transform_point (XT3 t) (XP3 p)) = true.
Proof.
  intros t b p A Z1 Z2 Z3 Z4 Z5 Z6 H. apply C47_containment_iff_3d_pf; auto.
  - unfold Rin3, Rordered3 in *. lra.
  - unfold same_direction3. rewrite Z1, Z2, Z3, Z4, Z5, Z6. repeat split; right; ring.
Qed.
Lemma C47_containment_refuted_2d_pf : exists (b : BoundingBox2 R) (p : Point2 R), Rordered2 b /\ bb2_is_inside (XB2 b) (XP2 p) = true /\
  bb2_is_inside (t2_transform_bb (t2_rotate (Fin (PI / 4))) (XB2 b)) (t2_transform_point (t2_rotate (Fin (PI / 4))) (XP2 p)) = false.
Proof.
  change (t2_rotate (Fin (PI / 4))) with (XT2 (mkT2 (m3_rotate (O := R_ops) (PI / 4)) (m3_transpose (m3_rotate (O := R_ops) (PI / 4))))).
  set (t := mkT2 _ _). assert (A : affine2 (t2_forward t)) by (repeat split).
  set (b := mkBB2 (mkPoint2 0 0) (mkPoint2 1 1)). assert (Ob : Rordered2 b) by (unfold Rordered2, b; cbn; lra).
  exists b, (mkPoint2 1 0). split; [exact Ob|]. split; [apply xle_iff2_inside; unfold Rin2, b; cbn; lra|].
  apply not_true_iff_false. rewrite xt2_bb by assumption. rewrite xbb2_new. unfold t2_transform_point. cbn [t2_forward XT2]. rewrite xm2_point_affine, xle_iff2_inside by assumption.
  unfold Rin2, Rnew2. rewrite !img2_affine by assumption.
  unfold t, b. cbn [t2_forward bb2_min bb2_max p2x p2y m3_rotate ssin_cos R_ops m3_new m3_0 m3_1 m3_2 m3_3 m3_4 m3_5 szero sone sneg].
  rewrite sin_PI4, cos_PI4. assert (0 < 1 / sqrt 2). { apply Rmult_lt_0_compat; [lra|]. apply Rinv_0_lt_compat, sqrt_lt_R0. lra. }
  unfold Rmin, Rmax. repeat destruct Rle_dec; lra.
Qed.
Lemma C47_containment_refuted_3d_pf : exists (b : BoundingBox3 R) (p : Point3 R), Rordered3 b /\ bb3_is_inside (XB3 b) (XP3 p) = true /\
  bb3_is_inside (t3_transform_bb (t3_rotate_z (Fin (PI / 4))) (XB3 b)) (t3_transform_point (t3_rotate_z (Fin (PI / 4))) (XP3 p)) = false.
Proof.
  change (t3_rotate_z (Fin (PI / 4))) with (XT3 (mkT3 (m4_rotate_z (O := R_ops) (PI / 4)) (m4_transpose (m4_rotate_z (O := R_ops) (PI / 4))))).
  set (t := mkT3 _ _). assert (A : affine3 (t3_forward t)) by (repeat split).
  set (b := mkBB3 (mkPoint3 0 0 0) (mkPoint3 1 1 1)). assert (Ob : Rordered3 b) by (unfold Rordered3, b; cbn; lra).
  exists b, (mkPoint3 1 0 0). split; [exact Ob|]. split; [apply xle_iff3_inside; unfold Rin3, b; cbn; lra|].
  apply not_true_iff_false. rewrite xt3_bb by assumption. rewrite xbb3_new. unfold t3_transform_point. cbn [t3_forward XT3]. rewrite xm3_point_affine, xle_iff3_inside by assumption.
  unfold Rin3, Rnew3. rewrite !img3_affine by assumption.
  unfold t, b. cbn [t3_forward bb3_min bb3_max p3x p3y p3z m4_rotate_z ssin_cos R_ops m4_new m4_0 m4_1 m4_2 m4_3 m4_4 m4_5 m4_6 m4_7 m4_8 m4_9 m4_10 m4_11 szero sone sneg].
  rewrite sin_PI4, cos_PI4. assert (0 < 1 / sqrt 2). { apply Rmult_lt_0_compat; [lra|]. apply Rinv_0_lt_compat, sqrt_lt_R0. lra. }
  unfold Rmin, Rmax. repeat destruct Rle_dec; lra.
Qed.
Lemma Vector3_dec0 (v : Vector3 R) : v = Rzero3 \/ v <> Rzero3.
Proof.
  destruct v as [x y z]. destruct (Req_dec x 0) as [->|]; [|right; intros E; injection E; lra].
  destruct (Req_dec y 0) as [->|]; [|right; intros E; injection E; lra]. destruct (Req_dec z 0) as [->|]; [|right; intros E; injection E; lra]. now left.
Qed.
Lemma xmul_nan_r x : xmul x XNaN = XNaN. Proof. now destruct x. Qed.
Lemma xadd_nan_r x : xadd x XNaN = XNaN. Proof. now destruct x. Qed.
Lemma xdiv_nan_r x : xdiv x XNaN = XNaN. Proof. now destruct x. Qed.
Definition NaN3 : Vector3 xreal := mkVector3 XNaN XNaN XNaN.
Lemma cross_nan_r v : v3_cross v NaN3 = NaN3.
Proof. destruct v as [[] [] []]; reflexivity. Qed.
Lemma cross_nan_l v : v3_cross NaN3 v = NaN3.
Proof. reflexivity. Qed.
Lemma normalize_nan : v3_normalize NaN3 = NaN3.
Proof. reflexivity. Qed.
Lemma normalize_zero : v3_normalize (XV3 Rzero3) = NaN3.
Proof.
  unfold v3_normalize. rewrite xv3_length. replace (Rnorm3 Rzero3) with 0.
  - unfold v3_div, XV3, Rzero3, v3_new, NaN3. cbn [v3x v3y v3z sdiv xreal_ops]. unfold xdiv. rewrite Req_bool_true by reflexivity.
    unfold xsigned_inf. now rewrite !Rlt_bool_false by lra.
  - rewrite Rnorm3_dot. unfold Rdot3, Rzero3. cbn. replace (0 * 0 + 0 * 0 + 0 * 0) with 0 by ring. now rewrite sqrt_0.
Qed.
Lemma la_degenerate from target up : ~ Indep3 up (Rsub3 target from) ->
  exists d u, m4_inverse_look_at (XP3 from) (XP3 target) (XV3 up) =
    mkM4 XNaN (v3x u) (v3x d) (Fin (p3x from)) XNaN (v3y u) (v3y d) (Fin (p3y from)) XNaN (v3z u) (v3z d) (Fin (p3z from)) (Fin 0) (Fin 0) (Fin 0) (Fin 1).
Proof.
  intros H. exists (v3_normalize (p3_sub (XP3 target) (XP3 from))).
  assert (E : v3_normalize (v3_cross (v3_normalize (XV3 up)) (v3_normalize (p3_sub (XP3 target) (XP3 from)))) = NaN3).
  { rewrite xp3_sub. fold (Rsub3 target from). destruct (Vector3_dec0 (Rsub3 target from)) as [Z|Z].
    - rewrite Z, normalize_zero, cross_nan_r. apply normalize_nan.
    - destruct (Vector3_dec0 up) as [Y|Y].
      + rewrite Y, normalize_zero, cross_nan_l. apply normalize_nan.
      + rewrite !xv3_normalize by assumption. fold (Runit up) (Runit (Rsub3 target from)). rewrite xv3_cross.
        replace (Rcross (Runit up) (Runit (Rsub3 target from))) with Rzero3; [apply normalize_zero|].
        destruct (Vector3_dec0 (Rcross up (Rsub3 target from))) as [X|X]; [|elim H; now apply Indep3_dec_ex].
        rewrite (Runit_scaled up), (Runit_scaled (Rsub3 target from)), Rcross_scale, X. unfold Rzero3. cbn. f_equal; ring. }
  eexists. unfold m4_inverse_look_at. rewrite E. reflexivity.
Qed.
Lemma C49_degenerate_gives_nan_pf : forall (prof : profile) (from target : Point3 R) (up : Vector3 R), ~ Indep3 up (Rsub3 target from) ->
  exists t, t3_look_at prof (XP3 from) (XP3 target) (XV3 up) = Ret (Ok t) /\
    forall p : Point3 xreal, t3_transform_point t p = mkPoint3 XNaN XNaN XNaN.
Proof.
  intros prof from target up H. destruct (la_degenerate from target up H) as (d & u & E). unfold t3_look_at. rewrite E. rewrite m4_inverse_closed.
  match goal with |- context [mkM4 XNaN ?a ?b ?c ?d ?e ?f ?g ?h ?i ?j ?k ?l ?m ?n ?o] => set (M := mkM4 XNaN a b c d e f g h i j k l m n o) end.
  assert (D : det4 M = XNaN). { unfold det4. unfold M at 1. cbn [m4_0 sadd smul xreal_ops]. reflexivity. }
  rewrite D. cbn [seq szero xreal_ops xeq xle andb negb obind]. eexists. split; [reflexivity|].
  intros p. unfold t3_transform_point, t3_new, m4_divs, m4_map. cbn [t3_forward sdiv xreal_ops]. rewrite !xdiv_nan_r.
  unfold m4_mul_point. cbn [m4_0 m4_1 m4_2 m4_3 m4_4 m4_5 m4_6 m4_7 m4_8 m4_9 m4_10 m4_11 m4_12 m4_13 m4_14 m4_15 smul sadd xreal_ops xmul xadd].
  reflexivity.
Qed.
Lemma C49_degenerate_refuted_pf : ~ (forall (prof : profile) (from target : Point3 R) (up : Vector3 R), ~ Indep3 up (Rsub3 target from) ->
   t3_look_at prof (XP3 from) (XP3 target) (XV3 up) = Ret Err).
Proof.
  intros H. assert (N : ~ Indep3 (mkVector3 0 1 0) (Rsub3 (mkPoint3 1 2 3) (mkPoint3 1 2 3))).
  { intros K. destruct (K 0 1); unfold Rsub3; cbn; lra. }
  destruct (C49_degenerate_gives_nan_pf {| debug_assertions := true; overflow_checks := true |} _ _ _ N) as (t & E & _).
  rewrite (H _ _ _ _ N) in E. discriminate.
Qed.
Lemma C49_look_at_result_pf : forall (prof : profile) (from target : Point3 R) (up : Vector3 R),
  exists t, t3_look_at prof (XP3 from) (XP3 target) (XV3 up) = Ret (Ok t) /\
    ((exists p : Point3 R, t3_transform_point t (XP3 from) = XP3 p) <-> Indep3 up (Rsub3 target from)).
Proof.
  intros prof from target up. destruct (Vector3_dec0 (Rcross up (Rsub3 target from))) as [Z|Z].
  - assert (N : ~ Indep3 up (Rsub3 target from)) by (intros K; now apply (Indep3_cross _ _ K)).
    destruct (C49_degenerate_gives_nan_pf prof from target up N) as (t & E & P). exists t. split; [exact E|]. split; [|tauto].
    intros (p & K). rewrite P in K. discriminate.
  - assert (N : Indep3 up (Rsub3 target from)) by now apply Indep3_dec_ex.
    destruct (C48_look_at_ok_pf prof from target up N) as (t & E). exists t. split; [exact E|]. split; [tauto|]. intros _.
    destruct (C48_look_at_frame_pf prof from target up t N E) as (K & _). exists (mkPoint3 0 0 0). exact K.
Qed.
