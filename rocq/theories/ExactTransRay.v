(** Proofs: boxes, rays and transforms together (exact arithmetic). *)
From Coq Require Import Bool NArith ZArith Reals List Lra Lia Psatz.
From Flocq Require Import Core.Raux.
From Verif Require Import Scalar Types Vector2 Vector3 Point2 Point3 Ray BoundingBox2 BoundingBox3 Transform2 Transform3
  XReal OrdLaws Arith SpecOrder SpecStruct SpecReal SpecBox SpecTrans SpecAxis XTac ExactBase ExactVec Adj4 ExactMat ExactRot ExactTrans ExactBox ExactTransBox.
Import ListNotations.
Local Open Scope R_scope.
Definition Rlin2 (m : Matrix3x3 R) (v : Vector2 R) : Vector2 R := mkVector2 (m3_0 m * v2x v + m3_1 m * v2y v) (m3_3 m * v2x v + m3_4 m * v2y v).
Lemma xvec2 m v : m3_mul_vector (XM3 m) (XV2 v) = XV2 (Rlin2 m v).
Proof. destruct m, v. unfold Rlin2. xcbv. cbn. xeqs; ring. Qed.
Definition Rtray2 (m : Matrix3x3 R) (r : Ray2 R) : Ray2 R := mkRay2 (img2 m (r2_origin r)) (Rlin2 m (r2_direction r)).
Lemma xtray2 t r : affine2 (t2_forward t) -> t2_transform_ray (XT2 t) (XR2 r) = XR2 (Rtray2 (t2_forward t) r).
Proof.
  intros A. unfold t2_transform_ray, r2_new, t2_transform_point, t2_transform_vector. cbn [t2_forward XT2 XR2 r2_origin r2_direction].
  rewrite xm2_point_affine by assumption. now rewrite xvec2.
Qed.
Lemma Rlin2_zero m : Rlin2 m Rzero2 = Rzero2.
Proof. unfold Rlin2, Rzero2. cbn. f_equal; ring. Qed.
Lemma XV2_inj v w : XV2 v = XV2 w -> v = w.
Proof. destruct v, w. intros H. injection H. now intros; subst. Qed.
Lemma XP2_inj v w : XP2 v = XP2 w -> v = w.
Proof. destruct v, w. intros H. injection H. now intros; subst. Qed.
Lemma XR2_inj v w : XR2 v = XR2 w -> v = w.
Proof.
  destruct v as [o d], w as [o' d']. intros H. pose proof (f_equal r2_origin H) as H1. pose proof (f_equal r2_direction H) as H2.
  cbn [r2_origin r2_direction XR2] in H1, H2. apply XP2_inj in H1. apply XV2_inj in H2. now subst.
Qed.
Definition Rlin3 (m : Matrix4x4 R) (v : Vector3 R) : Vector3 R := mkVector3 (m4_0 m * v3x v + m4_1 m * v3y v + m4_2 m * v3z v) (m4_4 m * v3x v + m4_5 m * v3y v + m4_6 m * v3z v) (m4_8 m * v3x v + m4_9 m * v3y v + m4_10 m * v3z v).
Lemma xvec3 m v : m4_mul_vector (XM4 m) (XV3 v) = XV3 (Rlin3 m v).
Proof. destruct m, v. unfold Rlin3. xcbv. cbn. xeqs; ring. Qed.
Definition Rtray3 (m : Matrix4x4 R) (r : Ray3 R) : Ray3 R := mkRay3 (img3 m (r3_origin r)) (Rlin3 m (r3_direction r)).
Lemma xtray3 t r : affine3 (t3_forward t) -> t3_transform_ray (XT3 t) (XR3 r) = XR3 (Rtray3 (t3_forward t) r).
Proof.
  intros A. unfold t3_transform_ray, r3_new, t3_transform_point, t3_transform_vector. cbn [t3_forward XT3 XR3 r3_origin r3_direction].
  rewrite xm3_point_affine by assumption. now rewrite xvec3.
Qed.
Lemma Rlin3_zero m : Rlin3 m Rzero3 = Rzero3.
Proof. unfold Rlin3, Rzero3. cbn. f_equal; ring. Qed.
Lemma XV3_inj v w : XV3 v = XV3 w -> v = w.
Proof. destruct v, w. intros H. injection H. now intros; subst. Qed.
Lemma XP3_inj v w : XP3 v = XP3 w -> v = w.
Proof. destruct v, w. intros H. injection H. now intros; subst. Qed.
Lemma XR3_inj v w : XR3 v = XR3 w -> v = w.
Proof.
  destruct v as [o d], w as [o' d']. intros H. pose proof (f_equal r3_origin H) as H1. pose proof (f_equal r3_direction H) as H2.
  cbn [r3_origin r3_direction XR3] in H1, H2. apply XP3_inj in H1. apply XV3_inj in H2. now subst.
Qed.
Lemma C66_object_space_intersection_2d_pf : forall (t : Transform2 R) (b : BoundingBox2 R) (r r' : Ray2 R), Built2 affine2 (XT2 t) -> Rordered2 b -> r2_direction r <> Rzero2 ->
  t2_transform_ray (t2_inverse (XT2 t)) (XR2 r) = XR2 r' -> off_faces2 b r' ->
  match bb2_intersect_ray (XB2 b) (t2_transform_ray (t2_inverse (XT2 t)) (XR2 r)) with
  | None => forall s : R, 0 <= s -> ~ (exists q : Point2 R, Rin2 q b /\ t2_transform_point (XT2 t) (XP2 q) = r2_at (XR2 r) (Fin s))
  | Some (s0, s1) => exists s0' s1' : R, s0 = Fin s0' /\ s1 = Fin s1' /\ 0 <= s0' <= s1' /\
      forall s : R, 0 <= s -> ((exists q : Point2 R, Rin2 q b /\ t2_transform_point (XT2 t) (XP2 q) = r2_at (XR2 r) (Fin s)) <-> s0' <= s <= s1')
  end.
Proof.
  intros t b r r' B O D E F. rewrite E.
  destruct (built2_affine t B) as [A1 A2].
  assert (AI : affine2 (t2_forward (mkT2 (t2_inv t) (t2_forward t)))) by exact A2.
  change (t2_inverse (XT2 t)) with (XT2 (mkT2 (t2_inv t) (t2_forward t))) in E.
  assert (RT : forall p, t2_transform_point (XT2 (mkT2 (t2_inv t) (t2_forward t))) (t2_transform_point (XT2 t) (XP2 p)) = XP2 p).
  { intros p. exact (proj1 (C43_affine_round_trip_2d_pf (XT2 t) p Rzero2 r B)). }
  assert (RT' : forall p, t2_transform_point (XT2 t) (t2_transform_point (XT2 (mkT2 (t2_inv t) (t2_forward t))) (XP2 p)) = XP2 p).
  { intros p. exact (proj1 (C43_affine_round_trip_2d_pf (t2_inverse (XT2 t)) p Rzero2 r (B2_inverse affine2 _ B))). }
  assert (D' : r2_direction r' <> Rzero2).
  { intros Z. apply D. rewrite xtray2 in E by exact AI. apply XR2_inj in E. cbn [t2_forward] in E.
    pose proof (proj1 (proj2 (C43_affine_round_trip_2d_pf (t2_inverse (XT2 t)) (r2_origin r) (r2_direction r) r (B2_inverse affine2 _ B)))) as V.
    unfold t2_transform_vector in V. cbn [t2_inverse t2_forward t2_inv XT2] in V.
    change (t2_forward (t2_inverse (t2_inverse (XT2 t)))) with (XM3 (t2_forward t)) in V. change (t2_forward (t2_inverse (XT2 t))) with (XM3 (t2_inv t)) in V.
    rewrite !xvec2 in V. apply XV2_inj in V. rewrite <- V. rewrite <- E in Z. cbn [r2_direction Rtray2] in Z. rewrite Z. apply Rlin2_zero. }
  assert (K : forall s, (exists q, Rin2 q b /\ t2_transform_point (XT2 t) (XP2 q) = r2_at (XR2 r) (Fin s)) <-> bb2_is_inside (XB2 b) (r2_at (XR2 r') (Fin s)) = true).
  { intros s. pose proof (C46_ray_at_2d_pf (mkT2 (t2_inv t) (t2_forward t)) r s AI) as HA. rewrite E in HA. rewrite HA. rewrite (xr2_at r s).
    split.
    - intros (q & I & Q). rewrite <- Q. rewrite RT. now apply xle_iff2_inside.
    - intros I. unfold t2_transform_point in I |- *. cbn [t2_forward XT2] in I |- *. rewrite xm2_point_affine in I by exact A2. apply xle_iff2_inside in I.
      exists (img2 (t2_inv t) (Rat2 r s)). split; [exact I|]. specialize (RT' (Rat2 r s)). unfold t2_transform_point in RT'. cbn [t2_forward XT2] in RT'.
      rewrite (xm2_point_affine (t2_inv t)) in RT' by exact A2. exact RT'. }
  pose proof (C16_ray_intersection_2d_pf b r' O D' F) as G. destruct (bb2_intersect_ray (XB2 b) (XR2 r')) as [[s0 s1]|].
  - destruct G as (s0' & s1' & -> & -> & H & G). exists s0', s1'. split; [reflexivity|]. split; [reflexivity|]. split; [exact H|].
    intros s Hs. rewrite K. now apply G.
  - intros s Hs Q. apply K in Q. rewrite G in Q by assumption. discriminate.
Qed.
Lemma C66_object_space_intersection_3d_pf : forall (t : Transform3 R) (b : BoundingBox3 R) (r r' : Ray3 R), Built3 affine3 (XT3 t) -> Rordered3 b -> r3_direction r <> Rzero3 ->
  t3_transform_ray (t3_inverse (XT3 t)) (XR3 r) = XR3 r' -> off_faces3 b r' ->
  match bb3_intersect_ray (XB3 b) (t3_transform_ray (t3_inverse (XT3 t)) (XR3 r)) with
  | None => forall s : R, 0 <= s -> ~ (exists q : Point3 R, Rin3 q b /\ t3_transform_point (XT3 t) (XP3 q) = r3_at (XR3 r) (Fin s))
  | Some (s0, s1) => exists s0' s1' : R, s0 = Fin s0' /\ s1 = Fin s1' /\ 0 <= s0' <= s1' /\
      forall s : R, 0 <= s -> ((exists q : Point3 R, Rin3 q b /\ t3_transform_point (XT3 t) (XP3 q) = r3_at (XR3 r) (Fin s)) <-> s0' <= s <= s1')
  end.
Proof.
  intros t b r r' B O D E F. rewrite E.
  destruct (built3_affine t B) as [A1 A2].
  assert (AI : affine3 (t3_forward (mkT3 (t3_inv t) (t3_forward t)))) by exact A2.
  change (t3_inverse (XT3 t)) with (XT3 (mkT3 (t3_inv t) (t3_forward t))) in E.
  assert (RT : forall p, t3_transform_point (XT3 (mkT3 (t3_inv t) (t3_forward t))) (t3_transform_point (XT3 t) (XP3 p)) = XP3 p).
  { intros p. exact (proj1 (C43_affine_round_trip_3d_pf (XT3 t) p Rzero3 r B)). }
  assert (RT' : forall p, t3_transform_point (XT3 t) (t3_transform_point (XT3 (mkT3 (t3_inv t) (t3_forward t))) (XP3 p)) = XP3 p).
  { intros p. exact (proj1 (C43_affine_round_trip_3d_pf (t3_inverse (XT3 t)) p Rzero3 r (B3_inverse affine3 _ B))). }
  assert (D' : r3_direction r' <> Rzero3).
  { intros Z. apply D. rewrite xtray3 in E by exact AI. apply XR3_inj in E. cbn [t3_forward] in E.
    pose proof (proj1 (proj2 (C43_affine_round_trip_3d_pf (t3_inverse (XT3 t)) (r3_origin r) (r3_direction r) r (B3_inverse affine3 _ B)))) as V.
    unfold t3_transform_vector in V. cbn [t3_inverse t3_forward t3_inv XT3] in V.
    change (t3_forward (t3_inverse (t3_inverse (XT3 t)))) with (XM4 (t3_forward t)) in V. change (t3_forward (t3_inverse (XT3 t))) with (XM4 (t3_inv t)) in V.
    rewrite !xvec3 in V. apply XV3_inj in V. rewrite <- V. rewrite <- E in Z. cbn [r3_direction Rtray3] in Z. rewrite Z. apply Rlin3_zero. }
  assert (K : forall s, (exists q, Rin3 q b /\ t3_transform_point (XT3 t) (XP3 q) = r3_at (XR3 r) (Fin s)) <-> bb3_is_inside (XB3 b) (r3_at (XR3 r') (Fin s)) = true).
  { intros s. pose proof (C46_ray_at_3d_pf (mkT3 (t3_inv t) (t3_forward t)) r s AI) as HA. rewrite E in HA. rewrite HA. rewrite (xr3_at r s).
    split.
    - intros (q & I & Q). rewrite <- Q. rewrite RT. now apply xle_iff3_inside.
    - intros I. unfold t3_transform_point in I |- *. cbn [t3_forward XT3] in I |- *. rewrite xm3_point_affine in I by exact A2. apply xle_iff3_inside in I.
      exists (img3 (t3_inv t) (Rat3 r s)). split; [exact I|]. specialize (RT' (Rat3 r s)). unfold t3_transform_point in RT'. cbn [t3_forward XT3] in RT'.
      rewrite (xm3_point_affine (t3_inv t)) in RT' by exact A2. exact RT'. }
  pose proof (C16_ray_intersection_3d_pf b r' O D' F) as G. destruct (bb3_intersect_ray (XB3 b) (XR3 r')) as [[s0 s1]|].
  - destruct G as (s0' & s1' & -> & -> & H & G). exists s0', s1'. split; [reflexivity|]. split; [reflexivity|]. split; [exact H|].
    intros s Hs. rewrite K. now apply G.
  - intros s Hs Q. apply K in Q. rewrite G in Q by assumption. discriminate.
Qed.
Lemma Rmin_plus_max a b : Rmin a b + Rmax a b = a + b.
Proof. unfold Rmin, Rmax. destruct (Rle_dec a b); lra. Qed.
Lemma slab_map (s c o d lo hi t : R) : s <> 0 -> lo <= hi ->
  (slab_seen (s * o + c) (s * d) (Rmin (s * lo + c) (s * hi + c)) (Rmax (s * lo + c) (s * hi + c)) t <-> slab_seen o d lo hi t).
Proof.
  intros S H. unfold slab_seen. assert (Z : s * d = 0 <-> d = 0) by (split; [intros X; apply Rmult_integral in X; tauto | intros ->; ring]).
  replace (s * o + c + t * (s * d)) with (s * (o + t * d) + c) by ring. set (x := o + t * d).
  destruct (Rdichotomy s 0 S) as [N|P].
  - rewrite Rmin_right, Rmax_left by nra. split; intros [A B]; (split; [split; nra|]); intros D; [apply Z in D | apply Z in D]; destruct (B D) as [[B1 B2]|B1]; try (left; split; nra); right; nra.
  - rewrite Rmin_left, Rmax_right by nra. split; intros [A B]; (split; [split; nra|]); intros D; [apply Z in D | apply Z in D]; destruct (B D) as [[B1 B2]|B1]; try (left; split; nra); right; nra.
Qed.
Lemma in_map1 (s c o lo hi : R) : s <> 0 -> lo <= hi -> (Rmin (s * lo + c) (s * hi + c) <= s * o + c <= Rmax (s * lo + c) (s * hi + c) <-> lo <= o <= hi).
Proof.
  intros S H. destruct (Rdichotomy s 0 S) as [N|P]; [rewrite Rmin_right, Rmax_left by nra | rewrite Rmin_left, Rmax_right by nra]; split; intros []; split; nra.
Qed.
Lemma range_unique (P : R -> Prop) (x y : option (xreal * xreal)) :
  match x with None => forall t, 0 <= t -> ~ P t | Some (s, e) => exists s' e', s = Fin s' /\ e = Fin e' /\ 0 <= s' <= e' /\ forall t, 0 <= t -> (P t <-> s' <= t <= e') end ->
  match y with None => forall t, 0 <= t -> ~ P t | Some (s, e) => exists s' e', s = Fin s' /\ e = Fin e' /\ 0 <= s' <= e' /\ forall t, 0 <= t -> (P t <-> s' <= t <= e') end ->
  x = y.
Proof.
  destruct x as [[s e]|], y as [[s1 e1]|]; [| | |reflexivity].
  - intros (a & b & -> & -> & H & K) (a' & b' & -> & -> & H' & K').
    assert (a' <= a <= b') by (apply K'; [lra|]; apply K; lra). assert (a' <= b <= b') by (apply K'; [lra|]; apply K; lra).
    assert (a <= a' <= b) by (apply K; [lra|]; apply K'; lra). assert (a <= b' <= b) by (apply K; [lra|]; apply K'; lra).
    assert (a = a') by lra. assert (b = b') by lra. now subst.
  - intros (a & b & _ & _ & H & K) N. exfalso. apply (N a); [lra|]. apply K; lra.
  - intros N (a & b & _ & _ & H & K). exfalso. apply (N a); [lra|]. apply K; lra.
Qed.
Lemma axis_cases2 m : axis_preserving2 m -> (m3_0 m <> 0 /\ m3_1 m = 0 /\ m3_3 m = 0 /\ m3_4 m <> 0) \/ (m3_0 m = 0 /\ m3_1 m <> 0 /\ m3_3 m <> 0 /\ m3_4 m = 0).
Proof.
  intros (s & I & E).
  pose proof (E D2X D2X) as E1. pose proof (E D2X D2Y) as E2. pose proof (E D2Y D2X) as E3. pose proof (E D2Y D2Y) as E4. cbn [lin2] in *.
  assert (NE : s D2X <> s D2Y) by (intros X; apply I in X; discriminate).
  assert (Z : forall x : R, ~ (x <> 0) -> x = 0) by (intros x N; destruct (Req_dec x 0); tauto).
  destruct (s D2X), (s D2Y); try congruence; [left | right]; repeat split; try (apply E1; reflexivity); try (apply E2; reflexivity); try (apply E3; reflexivity); try (apply E4; reflexivity);
   apply Z; intros X; first [apply E1 in X; discriminate | apply E2 in X; discriminate | apply E3 in X; discriminate | apply E4 in X; discriminate].
Qed.
Lemma axis_rows3 m : axis_preserving3 m ->
  let p a b c := a <> 0 /\ b = 0 /\ c = 0 in
  let x := (m4_0 m, m4_1 m, m4_2 m) in let y := (m4_4 m, m4_5 m, m4_6 m) in let z := (m4_8 m, m4_9 m, m4_10 m) in
  let px r := let '(a, b, c) := r in p a b c in let py r := let '(a, b, c) := r in p b a c in let pz r := let '(a, b, c) := r in p c a b in
  (px x /\ py y /\ pz z) \/ (px x /\ pz y /\ py z) \/ (py x /\ px y /\ pz z) \/ (py x /\ pz y /\ px z) \/ (pz x /\ px y /\ py z) \/ (pz x /\ py y /\ px z).
Proof.
  intros (s & I & E). cbv zeta.
  assert (N1 : s D3X <> s D3Y) by (intros X; apply I in X; discriminate).
  assert (N2 : s D3X <> s D3Z) by (intros X; apply I in X; discriminate).
  assert (N3 : s D3Y <> s D3Z) by (intros X; apply I in X; discriminate).
  assert (Z : forall i j, j <> s i -> lin3 m i j = 0) by (intros i j N; destruct (Req_dec (lin3 m i j) 0) as [|K]; [assumption | apply E in K; tauto]).
  assert (P : forall i, lin3 m i (s i) <> 0) by (intros i; now apply E).
  pose proof (P D3X) as P1. pose proof (P D3Y) as P2. pose proof (P D3Z) as P3.
  pose proof (Z D3X D3X) as Z1. pose proof (Z D3X D3Y) as Z2. pose proof (Z D3X D3Z) as Z3.
  pose proof (Z D3Y D3X) as Z4. pose proof (Z D3Y D3Y) as Z5. pose proof (Z D3Y D3Z) as Z6.
  pose proof (Z D3Z D3X) as Z7. pose proof (Z D3Z D3Y) as Z8. pose proof (Z D3Z D3Z) as Z9. clear Z P E I.
  destruct (s D3X), (s D3Y), (s D3Z); try congruence; cbn [lin3] in *;
  [left | right; left | right; right; left | right; right; right; left | right; right; right; right; left | right; right; right; right; right];
  repeat split; first [assumption | apply Z1; discriminate | apply Z2; discriminate | apply Z3; discriminate | apply Z4; discriminate | apply Z5; discriminate | apply Z6; discriminate | apply Z7; discriminate | apply Z8; discriminate | apply Z9; discriminate].
Qed.
Lemma C67_ray_equivariance_2d_pf : forall (t : Transform2 R) (b : BoundingBox2 R) (r : Ray2 R), affine2 (t2_forward t) -> axis_preserving2 (t2_forward t) -> Rordered2 b -> r2_direction r <> Rzero2 ->
  bb2_intersect_ray (t2_transform_bb (XT2 t) (XB2 b)) (t2_transform_ray (XT2 t) (XR2 r)) = bb2_intersect_ray (XB2 b) (XR2 r).
Proof.
  intros t b r A P O D. rewrite xt2_bb, xtray2, xbb2_new by assumption. set (m := t2_forward t) in *.
  assert (O' : Rordered2 (Rnew2 (img2 m (bb2_min b)) (img2 m (bb2_max b)))).
  { unfold Rordered2, Rnew2. cbn. split; (eapply Rle_trans; [apply Rmin_l | apply Rmax_l]). }
  assert (D' : r2_direction (Rtray2 m r) <> Rzero2).
  { intros Z. apply D. destruct (axis_cases2 m P) as [(P1 & P2 & P3 & P4)|(P1 & P2 & P3 & P4)]; unfold Rtray2, Rlin2, Rzero2 in Z; cbn [r2_direction] in Z; injection Z; intros Z2 Z1; rewrite ?P1, ?P2, ?P3, ?P4 in Z1, Z2; destruct (r2_direction r) as [dx dy]; cbn in Z1, Z2; unfold Rzero2; f_equal; nra. }
  apply (range_unique (seen2 b r)); [|apply (ray_spec2 b r O D)].
  pose proof (ray_spec2 _ _ O' D') as K.
  assert (Q : forall s, seen2 (Rnew2 (img2 m (bb2_min b)) (img2 m (bb2_max b))) (Rtray2 m r) s <-> seen2 b r s).
  { intros s. unfold seen2, Rnew2, Rtray2. cbn [bb2_min bb2_max r2_origin r2_direction p2x p2y]. rewrite !img2_affine by assumption. unfold Rlin2. cbn [p2x p2y v2x v2y].
    destruct O as [Ox Oy]. destruct b as [[x1 y1] [x2 y2]], r as [[ox oy] [dx dy]]. cbn [bb2_min bb2_max r2_origin r2_direction p2x p2y v2x v2y] in *.
    destruct (axis_cases2 m P) as [(P1 & P2 & P3 & P4)|(P1 & P2 & P3 & P4)]; rewrite ?P1, ?P2, ?P3, ?P4; repeat (rewrite Rmult_0_l || rewrite Rplus_0_l || rewrite Rplus_0_r); rewrite !slab_map by assumption; tauto. }
  destruct (bb2_intersect_ray _ _) as [[s e]|].
  - destruct K as (s' & e' & -> & -> & H & K). exists s', e'. split; [reflexivity|]. split; [reflexivity|]. split; [exact H|]. intros x Hx. rewrite <- Q. now apply K.
  - intros s Hs X. apply Q in X. now apply (K s).
Qed.
Lemma C67_ray_equivariance_3d_pf : forall (t : Transform3 R) (b : BoundingBox3 R) (r : Ray3 R), affine3 (t3_forward t) -> axis_preserving3 (t3_forward t) -> Rordered3 b -> r3_direction r <> Rzero3 ->
  bb3_intersect_ray (t3_transform_bb (XT3 t) (XB3 b)) (t3_transform_ray (XT3 t) (XR3 r)) = bb3_intersect_ray (XB3 b) (XR3 r).
Proof.
  intros t b r A P O D. rewrite xt3_bb, xtray3, xbb3_new by assumption. set (m := t3_forward t) in *.
  pose proof (axis_rows3 m P) as C. cbv zeta in C.
  assert (O' : Rordered3 (Rnew3 (img3 m (bb3_min b)) (img3 m (bb3_max b)))).
  { unfold Rordered3, Rnew3. cbn. repeat split; (eapply Rle_trans; [apply Rmin_l | apply Rmax_l]). }
  assert (Z0 : forall k x, k <> 0 -> k * x = 0 -> x = 0) by (intros k x H1 H2; apply Rmult_integral in H2; tauto).
  assert (D' : r3_direction (Rtray3 m r) <> Rzero3).
  { intros Z. apply D. unfold Rtray3, Rlin3, Rzero3 in Z; cbn [r3_direction] in Z. injection Z; intros Z3 Z2 Z1. destruct (r3_direction r) as [dx dy dz]. cbn [v3x v3y v3z] in *. unfold Rzero3.
    destruct C as [C|[C|[C|[C|[C|C]]]]]; destruct C as ((P1 & P2 & P3) & (P4 & P5 & P6) & (P7 & P8 & P9));
    rewrite ?P2, ?P3 in Z1; rewrite ?P5, ?P6 in Z2; rewrite ?P8, ?P9 in Z3; repeat (rewrite Rmult_0_l in Z1 || rewrite Rplus_0_l in Z1 || rewrite Rplus_0_r in Z1); repeat (rewrite Rmult_0_l in Z2 || rewrite Rplus_0_l in Z2 || rewrite Rplus_0_r in Z2); repeat (rewrite Rmult_0_l in Z3 || rewrite Rplus_0_l in Z3 || rewrite Rplus_0_r in Z3);
    (apply Z0 in Z1; [|assumption]); (apply Z0 in Z2; [|assumption]); (apply Z0 in Z3; [|assumption]); subst; reflexivity. }
  apply (range_unique (seen3 b r)); [|apply (ray_spec3 b r O D)].
  pose proof (ray_spec3 _ _ O' D') as K.
  assert (Q : forall s, seen3 (Rnew3 (img3 m (bb3_min b)) (img3 m (bb3_max b))) (Rtray3 m r) s <-> seen3 b r s).
  { intros s. unfold seen3, Rnew3, Rtray3. cbn [bb3_min bb3_max r3_origin r3_direction p3x p3y p3z]. rewrite !img3_affine by assumption. unfold Rlin3. cbn [p3x p3y p3z v3x v3y v3z].
    destruct O as (Ox & Oy & Oz). destruct b as [[x1 y1 z1] [x2 y2 z2]], r as [[ox oy oz] [dx dy dz]]. cbn [bb3_min bb3_max r3_origin r3_direction p3x p3y p3z v3x v3y v3z] in *.
    destruct C as [C|[C|[C|[C|[C|C]]]]]; destruct C as ((P1 & P2 & P3) & (P4 & P5 & P6) & (P7 & P8 & P9)); rewrite ?P2, ?P3, ?P5, ?P6, ?P8, ?P9; repeat (rewrite Rmult_0_l || rewrite Rplus_0_l || rewrite Rplus_0_r); rewrite !slab_map by assumption; tauto. }
  destruct (bb3_intersect_ray _ _) as [[s e]|].
  - destruct K as (s' & e' & -> & -> & H & K). exists s', e'. split; [reflexivity|]. split; [reflexivity|]. split; [exact H|]. intros x Hx. rewrite <- Q. now apply K.
  - intros s Hs X. apply Q in X. now apply (K s).
Qed.
Lemma U0 s x y : 0 < s -> x <= y -> s * x <= s * y. Proof. intros; nra. Qed.
Lemma U0' s x y : s < 0 -> x <= y -> s * y <= s * x. Proof. intros; nra. Qed.
Lemma min_add x y c : Rmin (x + c) (y + c) = Rmin x y + c.
Proof. unfold Rmin. destruct (Rle_dec (x + c) (y + c)), (Rle_dec x y); lra. Qed.
Lemma max_add x y c : Rmax (x + c) (y + c) = Rmax x y + c.
Proof. unfold Rmax. destruct (Rle_dec (x + c) (y + c)), (Rle_dec x y); lra. Qed.
Lemma smin_pos s x y : 0 < s -> s * Rmin x y = Rmin (s * x) (s * y).
Proof. intros. unfold Rmin. destruct (Rle_dec x y), (Rle_dec (s * x) (s * y)); nra. Qed.
Lemma smax_pos s x y : 0 < s -> s * Rmax x y = Rmax (s * x) (s * y).
Proof. intros. unfold Rmax. destruct (Rle_dec x y), (Rle_dec (s * x) (s * y)); nra. Qed.
Lemma smin_neg s x y : s < 0 -> s * Rmin x y = Rmax (s * x) (s * y).
Proof. intros. unfold Rmin, Rmax. destruct (Rle_dec x y), (Rle_dec (s * x) (s * y)); nra. Qed.
Lemma smax_neg s x y : s < 0 -> s * Rmax x y = Rmin (s * x) (s * y).
Proof. intros. unfold Rmin, Rmax. destruct (Rle_dec x y), (Rle_dec (s * x) (s * y)); nra. Qed.
Lemma min4_pos a1 b1 a2 b2 : a1 <= b1 -> a2 <= b2 -> Rmin (Rmin a1 a2) (Rmax b1 b2) = Rmin (Rmin a1 b1) (Rmin a2 b2) /\ Rmax (Rmin a1 a2) (Rmax b1 b2) = Rmax (Rmax a1 b1) (Rmax a2 b2).
Proof.
  intros H1 H2. rewrite (Rmin_left a1 b1), (Rmin_left a2 b2), (Rmax_right a1 b1), (Rmax_right a2 b2) by assumption.
  assert (Rmin a1 a2 <= Rmax b1 b2) by (eapply Rle_trans; [apply Rmin_l|]; eapply Rle_trans; [exact H1 | apply Rmax_l]).
  split; [now rewrite Rmin_left | now rewrite Rmax_right].
Qed.
Lemma min4_mid a1 b1 a2 b2 : a1 <= b1 -> a2 <= b2 -> a2 <= b1 -> a1 <= b2 -> Rmin (Rmax a1 a2) (Rmin b1 b2) = Rmax (Rmin a1 b1) (Rmin a2 b2) /\ Rmax (Rmax a1 a2) (Rmin b1 b2) = Rmin (Rmax a1 b1) (Rmax a2 b2).
Proof.
  intros H1 H2 H3 H4. rewrite (Rmin_left a1 b1), (Rmin_left a2 b2), (Rmax_right a1 b1), (Rmax_right a2 b2) by assumption.
  assert (Rmax a1 a2 <= Rmin b1 b2) by (apply Rmax_lub; apply Rmin_glb; assumption).
  split; [now rewrite Rmin_left | now rewrite Rmax_right].
Qed.
Lemma U1 s c a1 b1 a2 b2 : s <> 0 -> a1 <= b1 -> a2 <= b2 ->
  Rmin (s * Rmin a1 a2 + c) (s * Rmax b1 b2 + c) = Rmin (Rmin (s * a1 + c) (s * b1 + c)) (Rmin (s * a2 + c) (s * b2 + c)) /\
  Rmax (s * Rmin a1 a2 + c) (s * Rmax b1 b2 + c) = Rmax (Rmax (s * a1 + c) (s * b1 + c)) (Rmax (s * a2 + c) (s * b2 + c)).
Proof.
  intros S H1 H2. repeat (rewrite min_add || rewrite max_add). destruct (min4_pos a1 b1 a2 b2 H1 H2) as [E1 E2].
  destruct (Rdichotomy s 0 S) as [N|N].
  - repeat first [rewrite <- (smax_neg s) by exact N | rewrite <- (smin_neg s) by exact N]. now rewrite E1, E2.
  - repeat first [rewrite <- (smax_pos s) by exact N | rewrite <- (smin_pos s) by exact N]. now rewrite E1, E2.
Qed.
Lemma U2 s c a1 b1 a2 b2 : s <> 0 -> a1 <= b1 -> a2 <= b2 -> a2 <= b1 -> a1 <= b2 ->
  Rmin (s * Rmax a1 a2 + c) (s * Rmin b1 b2 + c) = Rmax (Rmin (s * a1 + c) (s * b1 + c)) (Rmin (s * a2 + c) (s * b2 + c)) /\
  Rmax (s * Rmax a1 a2 + c) (s * Rmin b1 b2 + c) = Rmin (Rmax (s * a1 + c) (s * b1 + c)) (Rmax (s * a2 + c) (s * b2 + c)).
Proof.
  intros S H1 H2 H3 H4. repeat (rewrite min_add || rewrite max_add). destruct (min4_mid a1 b1 a2 b2 H1 H2 H3 H4) as [E1 E2].
  destruct (Rdichotomy s 0 S) as [N|N].
  - repeat first [rewrite <- (smax_neg s) by exact N | rewrite <- (smin_neg s) by exact N]. now rewrite E1, E2.
  - repeat first [rewrite <- (smax_pos s) by exact N | rewrite <- (smin_pos s) by exact N]. now rewrite E1, E2.
Qed.
Lemma U3 s c a1 b1 a2 b2 : s <> 0 -> a1 <= b1 -> a2 <= b2 ->
  (Rmin (s * a2 + c) (s * b2 + c) <= Rmax (s * a1 + c) (s * b1 + c) /\ Rmin (s * a1 + c) (s * b1 + c) <= Rmax (s * a2 + c) (s * b2 + c)) <-> (a2 <= b1 /\ a1 <= b2).
Proof.
  intros S H1 H2. destruct (Rdichotomy s 0 S) as [N|P].
  - rewrite (Rmin_right (s * a1 + c)), (Rmin_right (s * a2 + c)), (Rmax_left (s * a1 + c)), (Rmax_left (s * a2 + c)) by nra. split; intros []; split; nra.
  - rewrite (Rmin_left (s * a1 + c)), (Rmin_left (s * a2 + c)), (Rmax_right (s * a1 + c)), (Rmax_right (s * a2 + c)) by nra. split; intros []; split; nra.
Qed.
Lemma N1 x y : x <= y -> Rmin x y = x /\ Rmax x y = y.
Proof. intros. now rewrite Rmin_left, Rmax_right. Qed.
Lemma omin_max a1 b1 a2 b2 : a1 <= b1 -> a2 <= b2 -> Rmin a1 a2 <= Rmax b1 b2.
Proof. intros. eapply Rle_trans; [apply Rmin_l|]. eapply Rle_trans; [eassumption | apply Rmax_l]. Qed.
Lemma omax_min a1 b1 a2 b2 : a1 <= b1 -> a2 <= b2 -> a1 <= b2 -> a2 <= b1 -> Rmax a1 a2 <= Rmin b1 b2.
Proof. intros. apply Rmax_lub; apply Rmin_glb; assumption. Qed.
Definition Rover2 (a b : BoundingBox2 R) : Prop :=
  (p2x (bb2_min b) <= p2x (bb2_max a) /\ p2x (bb2_min a) <= p2x (bb2_max b)) /\ (p2y (bb2_min b) <= p2y (bb2_max a) /\ p2y (bb2_min a) <= p2y (bb2_max b)).
Lemma xover2 a b : bb2_overlaps (XB2 a) (XB2 b) = true <-> Rover2 a b.
Proof. unfold bb2_overlaps, Rover2. cbn [sle xreal_ops XB2 XP2 bb2_min bb2_max p2x p2y]. rewrite !andb_true_iff, !xle_fin. tauto. Qed.
Definition Runion2 (a b : BoundingBox2 R) : BoundingBox2 R :=
  mkBB2 (mkPoint2 (Rmin (p2x (bb2_min a)) (p2x (bb2_min b))) (Rmin (p2y (bb2_min a)) (p2y (bb2_min b)))) (mkPoint2 (Rmax (p2x (bb2_max a)) (p2x (bb2_max b))) (Rmax (p2y (bb2_max a)) (p2y (bb2_max b)))).
Definition Rinter2 (a b : BoundingBox2 R) : BoundingBox2 R :=
  mkBB2 (mkPoint2 (Rmax (p2x (bb2_min a)) (p2x (bb2_min b))) (Rmax (p2y (bb2_min a)) (p2y (bb2_min b)))) (mkPoint2 (Rmin (p2x (bb2_max a)) (p2x (bb2_max b))) (Rmin (p2y (bb2_max a)) (p2y (bb2_max b)))).
Lemma Rnew_ordered2 p q : p2x p <= p2x q -> p2y p <= p2y q -> Rnew2 p q = mkBB2 p q.
Proof. intros H1 H2. destruct p, q. unfold Rnew2. cbn in *. now rewrite (proj1 (N1 _ _ H1)), (proj2 (N1 _ _ H1)), (proj1 (N1 _ _ H2)), (proj2 (N1 _ _ H2)). Qed.
Lemma xunion2 a b : Rordered2 a -> Rordered2 b -> bb2_union (XB2 a) (XB2 b) = XB2 (Runion2 a b).
Proof.
  intros [A1 A2] [B1 B2]. unfold bb2_union. cbn [XB2 bb2_min bb2_max]. rewrite xp2_min, xp2_max, xbb2_new. f_equal. apply Rnew_ordered2; cbn [p2x p2y]; now apply omin_max.
Qed.
Lemma xinter2 a b : Rordered2 a -> Rordered2 b -> bb2_intersect (XB2 a) (XB2 b) = if bb2_overlaps (XB2 a) (XB2 b) then Some (XB2 (Rinter2 a b)) else None.
Proof.
  intros [A1 A2] [B1 B2]. unfold bb2_intersect. destruct (bb2_overlaps (XB2 a) (XB2 b)) eqn:E; [|reflexivity]. apply xover2 in E. destruct E as [[] []]. cbn [XB2 bb2_min bb2_max]. rewrite xp2_min, xp2_max, xbb2_new. f_equal. f_equal. apply Rnew_ordered2; cbn [p2x p2y]; now apply omax_min.
Qed.
Lemma Rnew_is_ordered2 p q : Rordered2 (Rnew2 p q).
Proof. unfold Rordered2, Rnew2. cbn. split; (eapply Rle_trans; [apply Rmin_l | apply Rmax_l]). Qed.
Definition Rover3 (a b : BoundingBox3 R) : Prop :=
  (p3x (bb3_min b) <= p3x (bb3_max a) /\ p3x (bb3_min a) <= p3x (bb3_max b)) /\ (p3y (bb3_min b) <= p3y (bb3_max a) /\ p3y (bb3_min a) <= p3y (bb3_max b)) /\ (p3z (bb3_min b) <= p3z (bb3_max a) /\ p3z (bb3_min a) <= p3z (bb3_max b)).
Lemma xover3 a b : bb3_overlaps (XB3 a) (XB3 b) = true <-> Rover3 a b.
Proof. unfold bb3_overlaps, Rover3. cbn [sle xreal_ops XB3 XP3 bb3_min bb3_max p3x p3y p3z]. rewrite !andb_true_iff, !xle_fin. tauto. Qed.
Definition Runion3 (a b : BoundingBox3 R) : BoundingBox3 R :=
  mkBB3 (mkPoint3 (Rmin (p3x (bb3_min a)) (p3x (bb3_min b))) (Rmin (p3y (bb3_min a)) (p3y (bb3_min b))) (Rmin (p3z (bb3_min a)) (p3z (bb3_min b)))) (mkPoint3 (Rmax (p3x (bb3_max a)) (p3x (bb3_max b))) (Rmax (p3y (bb3_max a)) (p3y (bb3_max b))) (Rmax (p3z (bb3_max a)) (p3z (bb3_max b)))).
Definition Rinter3 (a b : BoundingBox3 R) : BoundingBox3 R :=
  mkBB3 (mkPoint3 (Rmax (p3x (bb3_min a)) (p3x (bb3_min b))) (Rmax (p3y (bb3_min a)) (p3y (bb3_min b))) (Rmax (p3z (bb3_min a)) (p3z (bb3_min b)))) (mkPoint3 (Rmin (p3x (bb3_max a)) (p3x (bb3_max b))) (Rmin (p3y (bb3_max a)) (p3y (bb3_max b))) (Rmin (p3z (bb3_max a)) (p3z (bb3_max b)))).
Lemma Rnew_ordered3 p q : p3x p <= p3x q -> p3y p <= p3y q -> p3z p <= p3z q -> Rnew3 p q = mkBB3 p q.
Proof. intros H1 H2 H3. destruct p, q. unfold Rnew3. cbn in *. now rewrite (proj1 (N1 _ _ H1)), (proj2 (N1 _ _ H1)), (proj1 (N1 _ _ H2)), (proj2 (N1 _ _ H2)), (proj1 (N1 _ _ H3)), (proj2 (N1 _ _ H3)). Qed.
Lemma xunion3 a b : Rordered3 a -> Rordered3 b -> bb3_union (XB3 a) (XB3 b) = XB3 (Runion3 a b).
Proof.
  intros (A1 & A2 & A3) (B1 & B2 & B3). unfold bb3_union. cbn [XB3 bb3_min bb3_max]. rewrite xp3_min, xp3_max, xbb3_new. f_equal. apply Rnew_ordered3; cbn [p3x p3y p3z]; now apply omin_max.
Qed.
Lemma xinter3 a b : Rordered3 a -> Rordered3 b -> bb3_intersect (XB3 a) (XB3 b) = if bb3_overlaps (XB3 a) (XB3 b) then Some (XB3 (Rinter3 a b)) else None.
Proof.
  intros (A1 & A2 & A3) (B1 & B2 & B3). unfold bb3_intersect. destruct (bb3_overlaps (XB3 a) (XB3 b)) eqn:E; [|reflexivity]. apply xover3 in E. destruct E as ([] & [] & []). cbn [XB3 bb3_min bb3_max]. rewrite xp3_min, xp3_max, xbb3_new. f_equal. f_equal. apply Rnew_ordered3; cbn [p3x p3y p3z]; now apply omax_min.
Qed.
Lemma Rnew_is_ordered3 p q : Rordered3 (Rnew3 p q).
Proof. unfold Rordered3, Rnew3. cbn. repeat split; (eapply Rle_trans; [apply Rmin_l | apply Rmax_l]). Qed.
Lemma C67_box_operations_2d_pf : forall (t : Transform2 R) (a b : BoundingBox2 R) (p : Point2 R), affine2 (t2_forward t) -> axis_preserving2 (t2_forward t) -> Rordered2 a -> Rordered2 b ->
  let T := t2_transform_bb (XT2 t) in
  bb2_is_inside (T (XB2 b)) (t2_transform_point (XT2 t) (XP2 p)) = bb2_is_inside (XB2 b) (XP2 p) /\
  T (bb2_union (XB2 a) (XB2 b)) = bb2_union (T (XB2 a)) (T (XB2 b)) /\
  bb2_overlaps (T (XB2 a)) (T (XB2 b)) = bb2_overlaps (XB2 a) (XB2 b) /\
  bb2_intersect (T (XB2 a)) (T (XB2 b)) = option_map T (bb2_intersect (XB2 a) (XB2 b)).
Proof.
  intros t a b p A P Oa Ob. cbv zeta.
  pose proof (axis_cases2 _ P) as C.
  assert (OV : bb2_overlaps (t2_transform_bb (XT2 t) (XB2 a)) (t2_transform_bb (XT2 t) (XB2 b)) = bb2_overlaps (XB2 a) (XB2 b)).
  { apply eq_iff_eq_true. rewrite !xt2_bb, !xbb2_new by assumption. rewrite !xover2. unfold Rover2, Rnew2. rewrite !img2_affine by assumption.
    destruct Oa, Ob. cbn [bb2_min bb2_max p2x p2y].
    destruct C as [(P1 & P2 & P3 & P4)|(P1 & P2 & P3 & P4)]; rewrite ?P1, ?P2, ?P3, ?P4; repeat (rewrite Rmult_0_l || rewrite Rplus_0_l || rewrite Rplus_0_r); rewrite !U3 by assumption; tauto. }
  split; [|split; [|split]]; [| |exact OV|].
  - apply eq_iff_eq_true. unfold t2_transform_point. cbn [t2_forward XT2]. rewrite xm2_point_affine, xt2_bb, xbb2_new by assumption. rewrite !xle_iff2_inside. unfold Rin2, Rnew2. rewrite !img2_affine by assumption.
    destruct Ob. cbn [bb2_min bb2_max p2x p2y].
    destruct C as [(P1 & P2 & P3 & P4)|(P1 & P2 & P3 & P4)]; rewrite ?P1, ?P2, ?P3, ?P4; repeat (rewrite Rmult_0_l || rewrite Rplus_0_l || rewrite Rplus_0_r); rewrite !in_map1 by assumption; tauto.
  - rewrite xunion2 by assumption. rewrite !xt2_bb, !xbb2_new by assumption. rewrite xunion2 by apply Rnew_is_ordered2. f_equal.
    unfold Rnew2, Runion2. rewrite !img2_affine by assumption. destruct Oa, Ob. cbn [bb2_min bb2_max p2x p2y].
    destruct C as [(P1 & P2 & P3 & P4)|(P1 & P2 & P3 & P4)]; rewrite ?P1, ?P2, ?P3, ?P4; repeat (rewrite Rmult_0_l || rewrite Rplus_0_l || rewrite Rplus_0_r); f_equal; f_equal; apply U1; assumption.
  - destruct (bb2_overlaps (XB2 a) (XB2 b)) eqn:E.
    + rewrite (xinter2 a b) by assumption. rewrite E. cbn [option_map]. revert OV. rewrite !xt2_bb, !xbb2_new by assumption. intros OV. rewrite xinter2 by apply Rnew_is_ordered2. rewrite OV. f_equal. f_equal.
      apply xover2 in E. destruct E as [[] []].
      unfold Rnew2, Rinter2. rewrite !img2_affine by assumption. destruct Oa, Ob. cbn [bb2_min bb2_max p2x p2y].
      destruct C as [(P1 & P2 & P3 & P4)|(P1 & P2 & P3 & P4)]; rewrite ?P1, ?P2, ?P3, ?P4; repeat (rewrite Rmult_0_l || rewrite Rplus_0_l || rewrite Rplus_0_r); f_equal; f_equal; symmetry; apply U2; assumption.
    + unfold bb2_intersect. rewrite OV, E. reflexivity.
Qed.
Lemma C67_box_operations_3d_pf : forall (t : Transform3 R) (a b : BoundingBox3 R) (p : Point3 R), affine3 (t3_forward t) -> axis_preserving3 (t3_forward t) -> Rordered3 a -> Rordered3 b ->
  let T := t3_transform_bb (XT3 t) in
  bb3_is_inside (T (XB3 b)) (t3_transform_point (XT3 t) (XP3 p)) = bb3_is_inside (XB3 b) (XP3 p) /\
  T (bb3_union (XB3 a) (XB3 b)) = bb3_union (T (XB3 a)) (T (XB3 b)) /\
  bb3_overlaps (T (XB3 a)) (T (XB3 b)) = bb3_overlaps (XB3 a) (XB3 b) /\
  bb3_intersect (T (XB3 a)) (T (XB3 b)) = option_map T (bb3_intersect (XB3 a) (XB3 b)).
Proof.
  intros t a b p A P Oa Ob. cbv zeta.
  pose proof (axis_rows3 _ P) as C. cbv zeta in C.
  assert (OV : bb3_overlaps (t3_transform_bb (XT3 t) (XB3 a)) (t3_transform_bb (XT3 t) (XB3 b)) = bb3_overlaps (XB3 a) (XB3 b)).
  { apply eq_iff_eq_true. rewrite !xt3_bb, !xbb3_new by assumption. rewrite !xover3. unfold Rover3, Rnew3. rewrite !img3_affine by assumption.
    destruct Oa as (? & ? & ?), Ob as (? & ? & ?). cbn [bb3_min bb3_max p3x p3y p3z].
    destruct C as [C|[C|[C|[C|[C|C]]]]]; destruct C as ((P1 & P2 & P3) & (P4 & P5 & P6) & (P7 & P8 & P9)); rewrite ?P2, ?P3, ?P5, ?P6, ?P8, ?P9; repeat (rewrite Rmult_0_l || rewrite Rplus_0_l || rewrite Rplus_0_r); rewrite !U3 by assumption; tauto. }
  split; [|split; [|split]]; [| |exact OV|].
  - apply eq_iff_eq_true. unfold t3_transform_point. cbn [t3_forward XT3]. rewrite xm3_point_affine, xt3_bb, xbb3_new by assumption. rewrite !xle_iff3_inside. unfold Rin3, Rnew3. rewrite !img3_affine by assumption.
    destruct Ob as (? & ? & ?). cbn [bb3_min bb3_max p3x p3y p3z].
    destruct C as [C|[C|[C|[C|[C|C]]]]]; destruct C as ((P1 & P2 & P3) & (P4 & P5 & P6) & (P7 & P8 & P9)); rewrite ?P2, ?P3, ?P5, ?P6, ?P8, ?P9; repeat (rewrite Rmult_0_l || rewrite Rplus_0_l || rewrite Rplus_0_r); rewrite !in_map1 by assumption; tauto.
  - rewrite xunion3 by assumption. rewrite !xt3_bb, !xbb3_new by assumption. rewrite xunion3 by apply Rnew_is_ordered3. f_equal.
    unfold Rnew3, Runion3. rewrite !img3_affine by assumption. destruct Oa as (? & ? & ?), Ob as (? & ? & ?). cbn [bb3_min bb3_max p3x p3y p3z].
    destruct C as [C|[C|[C|[C|[C|C]]]]]; destruct C as ((P1 & P2 & P3) & (P4 & P5 & P6) & (P7 & P8 & P9)); rewrite ?P2, ?P3, ?P5, ?P6, ?P8, ?P9; repeat (rewrite Rmult_0_l || rewrite Rplus_0_l || rewrite Rplus_0_r); f_equal; f_equal; apply U1; assumption.
  - destruct (bb3_overlaps (XB3 a) (XB3 b)) eqn:E.
    + rewrite (xinter3 a b) by assumption. rewrite E. cbn [option_map]. revert OV. rewrite !xt3_bb, !xbb3_new by assumption. intros OV. rewrite xinter3 by apply Rnew_is_ordered3. rewrite OV. f_equal. f_equal.
      apply xover3 in E. destruct E as ([] & [] & []).
      unfold Rnew3, Rinter3. rewrite !img3_affine by assumption. destruct Oa as (? & ? & ?), Ob as (? & ? & ?). cbn [bb3_min bb3_max p3x p3y p3z].
      destruct C as [C|[C|[C|[C|[C|C]]]]]; destruct C as ((P1 & P2 & P3) & (P4 & P5 & P6) & (P7 & P8 & P9)); rewrite ?P2, ?P3, ?P5, ?P6, ?P8, ?P9; repeat (rewrite Rmult_0_l || rewrite Rplus_0_l || rewrite Rplus_0_r); f_equal; f_equal; symmetry; apply U2; assumption.
    + unfold bb3_intersect. rewrite OV, E. reflexivity.
Qed.
Lemma C68_center_2d_pf : forall (t : Transform2 R) (b : BoundingBox2 R), affine2 (t2_forward t) ->
  bb2_center (t2_transform_bb (XT2 t) (XB2 b)) = t2_transform_point (XT2 t) (bb2_center (XB2 b)).
Proof.
  intros t b A. rewrite xt2_bb, xbb2_new by assumption. rewrite (proj1 (C13_center_exact_2d_pf _)), (proj1 (C13_center_exact_2d_pf _)).
  unfold t2_transform_point. cbn [t2_forward XT2]. rewrite xm2_point_affine by assumption. f_equal. unfold Rnew2. rewrite !img2_affine by assumption. cbn.
  rewrite ?Rmin_plus_max. f_equal; lra.
Qed.
Lemma C68_center_3d_pf : forall (t : Transform3 R) (b : BoundingBox3 R), affine3 (t3_forward t) ->
  bb3_center (t3_transform_bb (XT3 t) (XB3 b)) = t3_transform_point (XT3 t) (bb3_center (XB3 b)).
Proof.
  intros t b A. rewrite xt3_bb, xbb3_new by assumption. rewrite (proj1 (C13_center_exact_3d_pf _)), (proj1 (C13_center_exact_3d_pf _)).
  unfold t3_transform_point. cbn [t3_forward XT3]. rewrite xm3_point_affine by assumption. f_equal. unfold Rnew3. rewrite !img3_affine by assumption. cbn.
  rewrite ?Rmin_plus_max. f_equal; lra.
Qed.
