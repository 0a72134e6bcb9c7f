(** Proofs: scene graphs (C118). *)
From Coq Require Import Bool NArith ZArith Reals List Lra Lia Psatz.
From Verif Require Import Scalar Types Vector2 Vector3 Point2 Point3 Ray BoundingBox2 BoundingBox3 Transform2 Transform3
  XReal Arith SpecReal SpecBox SpecTrans SpecScene XTac ExactBase ExactVec ExactMat ExactRot ExactTrans ExactBox ExactTransBox ExactTransRay.
Import ListNotations.
Local Open Scope R_scope.
Definition Rinv_t2 (t : Transform2 R) : Transform2 R := mkT2 (t2_inv t) (t2_forward t).
Lemma Rinv_t_eq2 t : t2_inverse (XT2 t) = XT2 (Rinv_t2 t).
Proof. reflexivity. Qed.
Lemma tpoint_af2 t p : affine2 (t2_forward t) -> t2_transform_point (XT2 t) (XP2 p) = XP2 (img2 (t2_forward t) p).
Proof. intros A. unfold t2_transform_point. cbn [t2_forward XT2]. now rewrite xm2_point_affine. Qed.
Lemma move_point2 t p : Built2 affine2 (XT2 t) ->
  t2_transform_point (t2_inverse (XT2 t)) (XP2 p) = XP2 (img2 (t2_inv t) p) /\
  forall q, t2_transform_point (XT2 t) (XP2 q) = XP2 p <-> q = img2 (t2_inv t) p.
Proof.
  intros B. destruct (built2_affine t B) as [A1 A2].
  assert (I1 : forall p, t2_transform_point (t2_inverse (XT2 t)) (XP2 p) = XP2 (img2 (t2_inv t) p)).
  { intros p0. rewrite Rinv_t_eq2. now apply (tpoint_af2 (Rinv_t2 t)). }
  split; [apply I1|]. intros q.
  pose (r0 := mkRay2 p Rzero2).
  split.
  - intros E. pose proof (proj1 (C43_affine_round_trip_2d_pf (XT2 t) q Rzero2 r0 B)) as K. rewrite E, I1 in K. symmetry. now apply XP2_inj.
  - intros ->. pose proof (proj1 (C43_affine_round_trip_2d_pf (t2_inverse (XT2 t)) p Rzero2 r0 (B2_inverse affine2 _ B))) as K.
    rewrite I1 in K. exact K.
Qed.
Lemma covers_move2 t s i p : Built2 affine2 (XT2 t) -> (Covers2 (SMove2 t s) i p <-> Covers2 s i (img2 (t2_inv t) p)).
Proof.
  intros B. destruct (move_point2 t p B) as [_ M]. cbn [Covers2]. split.
  - intros (q & C & E). apply M in E. now subst.
  - intros C. exists (img2 (t2_inv t) p). split; [exact C|]. now apply M.
Qed.
Lemma move_dir2 t r : Built2 affine2 (XT2 t) -> r2_direction r <> Rzero2 -> r2_direction (Rtray2 (t2_inv t) r) <> Rzero2.
Proof.
  intros B D Z. apply D.
  pose proof (proj1 (proj2 (C43_affine_round_trip_2d_pf (t2_inverse (XT2 t)) (r2_origin r) (r2_direction r) r (B2_inverse affine2 _ B)))) as V.
  unfold t2_transform_vector in V. cbn [t2_inverse t2_forward t2_inv XT2] in V.
  change (t2_forward (t2_inverse (t2_inverse (XT2 t)))) with (XM3 (t2_forward t)) in V. change (t2_forward (t2_inverse (XT2 t))) with (XM3 (t2_inv t)) in V.
  rewrite !xvec2 in V. apply XV2_inj in V. rewrite <- V. cbn [r2_direction Rtray2] in Z. rewrite Z. apply Rlin2_zero.
Qed.
Lemma move_ray2 t r : Built2 affine2 (XT2 t) -> t2_transform_ray (t2_inverse (XT2 t)) (XR2 r) = XR2 (Rtray2 (t2_inv t) r).
Proof. intros B. destruct (built2_affine t B) as [A1 A2]. rewrite Rinv_t_eq2. now apply (xtray2 (Rinv_t2 t)). Qed.
Lemma move_at2 t r s : Built2 affine2 (XT2 t) -> img2 (t2_inv t) (Rat2 r s) = Rat2 (Rtray2 (t2_inv t) r) s.
Proof.
  intros B. destruct (built2_affine t B) as [A1 A2]. pose proof (C46_ray_at_2d_pf (Rinv_t2 t) r s A2) as H.
  rewrite (xtray2 (Rinv_t2 t)) in H by exact A2. rewrite !xr2_at in H. rewrite tpoint_af2 in H by exact A2. apply XP2_inj in H. now symmetry.
Qed.
Definition Rinv_t3 (t : Transform3 R) : Transform3 R := mkT3 (t3_inv t) (t3_forward t).
Lemma Rinv_t_eq3 t : t3_inverse (XT3 t) = XT3 (Rinv_t3 t).
Proof. reflexivity. Qed.
Lemma tpoint_af3 t p : affine3 (t3_forward t) -> t3_transform_point (XT3 t) (XP3 p) = XP3 (img3 (t3_forward t) p).
Proof. intros A. unfold t3_transform_point. cbn [t3_forward XT3]. now rewrite xm3_point_affine. Qed.
Lemma move_point3 t p : Built3 affine3 (XT3 t) ->
  t3_transform_point (t3_inverse (XT3 t)) (XP3 p) = XP3 (img3 (t3_inv t) p) /\
  forall q, t3_transform_point (XT3 t) (XP3 q) = XP3 p <-> q = img3 (t3_inv t) p.
Proof.
  intros B. destruct (built3_affine t B) as [A1 A2].
  assert (I1 : forall p, t3_transform_point (t3_inverse (XT3 t)) (XP3 p) = XP3 (img3 (t3_inv t) p)).
  { intros p0. rewrite Rinv_t_eq3. now apply (tpoint_af3 (Rinv_t3 t)). }
  split; [apply I1|]. intros q.
  pose (r0 := mkRay3 p Rzero3).
  split.
  - intros E. pose proof (proj1 (C43_affine_round_trip_3d_pf (XT3 t) q Rzero3 r0 B)) as K. rewrite E, I1 in K. symmetry. now apply XP3_inj.
  - intros ->. pose proof (proj1 (C43_affine_round_trip_3d_pf (t3_inverse (XT3 t)) p Rzero3 r0 (B3_inverse affine3 _ B))) as K.
    rewrite I1 in K. exact K.
Qed.
Lemma covers_move3 t s i p : Built3 affine3 (XT3 t) -> (Covers3 (SMove3 t s) i p <-> Covers3 s i (img3 (t3_inv t) p)).
Proof.
  intros B. destruct (move_point3 t p B) as [_ M]. cbn [Covers3]. split.
  - intros (q & C & E). apply M in E. now subst.
  - intros C. exists (img3 (t3_inv t) p). split; [exact C|]. now apply M.
Qed.
Lemma move_dir3 t r : Built3 affine3 (XT3 t) -> r3_direction r <> Rzero3 -> r3_direction (Rtray3 (t3_inv t) r) <> Rzero3.
Proof.
  intros B D Z. apply D.
  pose proof (proj1 (proj2 (C43_affine_round_trip_3d_pf (t3_inverse (XT3 t)) (r3_origin r) (r3_direction r) r (B3_inverse affine3 _ B)))) as V.
  unfold t3_transform_vector in V. cbn [t3_inverse t3_forward t3_inv XT3] in V.
  change (t3_forward (t3_inverse (t3_inverse (XT3 t)))) with (XM4 (t3_forward t)) in V. change (t3_forward (t3_inverse (XT3 t))) with (XM4 (t3_inv t)) in V.
  rewrite !xvec3 in V. apply XV3_inj in V. rewrite <- V. cbn [r3_direction Rtray3] in Z. rewrite Z. apply Rlin3_zero.
Qed.
Lemma move_ray3 t r : Built3 affine3 (XT3 t) -> t3_transform_ray (t3_inverse (XT3 t)) (XR3 r) = XR3 (Rtray3 (t3_inv t) r).
Proof. intros B. destruct (built3_affine t B) as [A1 A2]. rewrite Rinv_t_eq3. now apply (xtray3 (Rinv_t3 t)). Qed.
Lemma move_at3 t r s : Built3 affine3 (XT3 t) -> img3 (t3_inv t) (Rat3 r s) = Rat3 (Rtray3 (t3_inv t) r) s.
Proof.
  intros B. destruct (built3_affine t B) as [A1 A2]. pose proof (C46_ray_at_3d_pf (Rinv_t3 t) r s A2) as H.
  rewrite (xtray3 (Rinv_t3 t)) in H by exact A2. rewrite !xr3_at in H. rewrite tpoint_af3 in H by exact A2. apply XP3_inj in H. now symmetry.
Qed.
Lemma C118_cast_2d_pf : forall (s : scene2) (r : Ray2 R), SceneOk2 s -> r2_direction r <> Rzero2 -> Clear2 s r ->
  (forall (i : N) (x : xreal), In (i, x) (cast2 s (XR2 r)) -> exists x' : R, x = Fin x' /\ 0 <= x' /\ Covers2 s i (Rat2 r x')) /\
  (forall (i : N) (y : R), 0 <= y -> Covers2 s i (Rat2 r y) -> exists x' : R, x' <= y /\ In (i, Fin x') (cast2 s (XR2 r))).
Proof.
  induction s as [j b|t s IH|l IHl r1 IHr]; intros r OK D C.
  - cbn [SceneOk2 Clear2 cast2] in *. pose proof (C16_ray_intersection_2d_pf b r OK D C) as G.
    assert (IN : forall y, bb2_is_inside (XB2 b) (r2_at (XR2 r) (Fin y)) = true <-> Rin2 (Rat2 r y) b).
    { intros y. rewrite xr2_at. apply xle_iff2_inside. }
    destruct (bb2_intersect_ray (XB2 b) (XR2 r)) as [[s0 s1]|].
    + destruct G as (s0' & s1' & -> & -> & L & G). split.
      * intros i x [E|[]]. injection E as <- <-. exists s0'. split; [reflexivity|]. split; [lra|]. cbn [Covers2]. split; [reflexivity|]. apply IN. apply G; lra.
      * intros i y Hy [-> I]. apply IN in I. apply G in I; [|exact Hy]. exists s0'. split; [lra|]. left. reflexivity.
    + split; [intros i x []|]. intros i y Hy [-> I]. apply IN in I. rewrite G in I by exact Hy. discriminate.
  - destruct OK as [B OK]. cbn [Clear2 cast2] in *. rewrite (move_ray2 t r B). specialize (C _ (move_ray2 t r B)).
    destruct (IH _ OK (move_dir2 t r B D) C) as [H1 H2]. split.
    + intros i x I. destruct (H1 i x I) as (x' & E & P & K). exists x'. split; [exact E|]. split; [exact P|]. apply covers_move2; [exact B|]. now rewrite move_at2.
    + intros i y Hy K. apply (covers_move2 t s i _ B) in K. rewrite move_at2 in K by exact B. now apply H2.
  - destruct OK as [O1 O2], C as [C1 C2]. destruct (IHl r O1 D C1) as [L1 L2], (IHr r O2 D C2) as [R1 R2]. cbn [cast2 Covers2]. split.
    + intros i x I. apply in_app_or in I. destruct I as [I|I]; [destruct (L1 i x I) as (x' & E & P & K) | destruct (R1 i x I) as (x' & E & P & K)]; exists x'; tauto.
    + intros i y Hy [K|K]; [destruct (L2 i y Hy K) as (x' & E & P) | destruct (R2 i y Hy K) as (x' & E & P)]; exists x'; (split; [exact E|]); apply in_or_app; tauto.
Qed.
Lemma C118_cast_3d_pf : forall (s : scene3) (r : Ray3 R), SceneOk3 s -> r3_direction r <> Rzero3 -> Clear3 s r ->
  (forall (i : N) (x : xreal), In (i, x) (cast3 s (XR3 r)) -> exists x' : R, x = Fin x' /\ 0 <= x' /\ Covers3 s i (Rat3 r x')) /\
  (forall (i : N) (y : R), 0 <= y -> Covers3 s i (Rat3 r y) -> exists x' : R, x' <= y /\ In (i, Fin x') (cast3 s (XR3 r))).
Proof.
  induction s as [j b|t s IH|l IHl r1 IHr]; intros r OK D C.
  - cbn [SceneOk3 Clear3 cast3] in *. pose proof (C16_ray_intersection_3d_pf b r OK D C) as G.
    assert (IN : forall y, bb3_is_inside (XB3 b) (r3_at (XR3 r) (Fin y)) = true <-> Rin3 (Rat3 r y) b).
    { intros y. rewrite xr3_at. apply xle_iff3_inside. }
    destruct (bb3_intersect_ray (XB3 b) (XR3 r)) as [[s0 s1]|].
    + destruct G as (s0' & s1' & -> & -> & L & G). split.
      * intros i x [E|[]]. injection E as <- <-. exists s0'. split; [reflexivity|]. split; [lra|]. cbn [Covers3]. split; [reflexivity|]. apply IN. apply G; lra.
      * intros i y Hy [-> I]. apply IN in I. apply G in I; [|exact Hy]. exists s0'. split; [lra|]. left. reflexivity.
    + split; [intros i x []|]. intros i y Hy [-> I]. apply IN in I. rewrite G in I by exact Hy. discriminate.
  - destruct OK as [B OK]. cbn [Clear3 cast3] in *. rewrite (move_ray3 t r B). specialize (C _ (move_ray3 t r B)).
    destruct (IH _ OK (move_dir3 t r B D) C) as [H1 H2]. split.
    + intros i x I. destruct (H1 i x I) as (x' & E & P & K). exists x'. split; [exact E|]. split; [exact P|]. apply covers_move3; [exact B|]. now rewrite move_at3.
    + intros i y Hy K. apply (covers_move3 t s i _ B) in K. rewrite move_at3 in K by exact B. now apply H2.
  - destruct OK as [O1 O2], C as [C1 C2]. destruct (IHl r O1 D C1) as [L1 L2], (IHr r O2 D C2) as [R1 R2]. cbn [cast3 Covers3]. split.
    + intros i x I. apply in_app_or in I. destruct I as [I|I]; [destruct (L1 i x I) as (x' & E & P & K) | destruct (R1 i x I) as (x' & E & P & K)]; exists x'; tauto.
    + intros i y Hy [K|K]; [destruct (L2 i y Hy K) as (x' & E & P) | destruct (R2 i y Hy K) as (x' & E & P)]; exists x'; (split; [exact E|]); apply in_or_app; tauto.
Qed.
Lemma first_hit_spec (l : list (N * xreal)) : (forall i x, In (i, x) l -> exists x', x = Fin x') ->
  match first_hit l with None => l = [] | Some (i, x) => In (i, x) l /\ exists x', x = Fin x' /\ forall j y, In (j, Fin y) l -> x' <= y end.
Proof.
  induction l as [|[i x] l IH]; intros F; [reflexivity|]. cbn [first_hit].
  assert (F' : forall i x, In (i, x) l -> exists x', x = Fin x') by (intros; eapply F; right; eassumption).
  destruct (F i x (or_introl eq_refl)) as [x' ->]. specialize (IH F').
  destruct (first_hit l) as [[j y]|].
  - destruct IH as (I & y' & -> & M). destruct (sle (Fin x') (Fin y')) eqn:E.
    + split; [now left|]. exists x'. split; [reflexivity|]. apply xle_fin in E. intros k z [K|K]; [injection K as _ <-; lra|]. specialize (M k z K). lra.
    + split; [now right|]. exists y'. split; [reflexivity|]. assert (N : ~ x' <= y') by (intros K; apply xle_fin in K; cbn [sle xreal_ops] in E; rewrite K in E; discriminate).
      intros k z [K|K]; [injection K as _ <-; lra|]. now apply (M k z).
  - subst l. split; [now left|]. exists x'. split; [reflexivity|]. intros k z [K|[]]. injection K as _ <-. lra.
Qed.
Lemma C118_first_hit_2d_pf : forall (s : scene2) (r : Ray2 R), SceneOk2 s -> r2_direction r <> Rzero2 -> Clear2 s r ->
  match first_hit (cast2 s (XR2 r)) with
  | None => forall (i : N) (y : R), 0 <= y -> ~ Covers2 s i (Rat2 r y)
  | Some (i, x) => exists x' : R, x = Fin x' /\ 0 <= x' /\ Covers2 s i (Rat2 r x') /\ forall (j : N) (y : R), 0 <= y < x' -> ~ Covers2 s j (Rat2 r y)
  end.
Proof.
  intros s r OK D C. destruct (C118_cast_2d_pf s r OK D C) as [H1 H2].
  pose proof (first_hit_spec (cast2 s (XR2 r))) as F. destruct (first_hit (cast2 s (XR2 r))) as [[i x]|].
  - destruct F as (I & x' & -> & M); [intros k z K; destruct (H1 k z K) as (z' & E & _); now exists z'|].
    destruct (H1 i _ I) as (x0 & E & P & K). injection E as <-. exists x'. split; [reflexivity|]. split; [exact P|]. split; [exact K|].
    intros j y Hy Q. destruct (H2 j y (proj1 Hy) Q) as (z & L & J). specialize (M j z J). lra.
  - rewrite F in H2; [|intros k z K; destruct (H1 k z K) as (z' & E & _); now exists z']. intros i y Hy Q. destruct (H2 i y Hy Q) as (z & _ & []).
Qed.
Lemma C118_first_hit_3d_pf : forall (s : scene3) (r : Ray3 R), SceneOk3 s -> r3_direction r <> Rzero3 -> Clear3 s r ->
  match first_hit (cast3 s (XR3 r)) with
  | None => forall (i : N) (y : R), 0 <= y -> ~ Covers3 s i (Rat3 r y)
  | Some (i, x) => exists x' : R, x = Fin x' /\ 0 <= x' /\ Covers3 s i (Rat3 r x') /\ forall (j : N) (y : R), 0 <= y < x' -> ~ Covers3 s j (Rat3 r y)
  end.
Proof.
  intros s r OK D C. destruct (C118_cast_3d_pf s r OK D C) as [H1 H2].
  pose proof (first_hit_spec (cast3 s (XR3 r))) as F. destruct (first_hit (cast3 s (XR3 r))) as [[i x]|].
  - destruct F as (I & x' & -> & M); [intros k z K; destruct (H1 k z K) as (z' & E & _); now exists z'|].
    destruct (H1 i _ I) as (x0 & E & P & K). injection E as <-. exists x'. split; [reflexivity|]. split; [exact P|]. split; [exact K|].
    intros j y Hy Q. destruct (H2 j y (proj1 Hy) Q) as (z & L & J). specialize (M j z J). lra.
  - rewrite F in H2; [|intros k z K; destruct (H1 k z K) as (z' & E & _); now exists z']. intros i y Hy Q. destruct (H2 i y Hy Q) as (z & _ & []).
Qed.
Lemma C118_pick_2d_pf : forall (s : scene2) (p : Point2 R) (i : N), SceneOk2 s -> (In i (pick2 s (XP2 p)) <-> Covers2 s i p).
Proof.
  induction s as [j b|t s IH|l IHl r IHr]; intros p i OK.
  - cbn [pick2 Covers2]. rewrite <- xle_iff2_inside. destruct (bb2_is_inside (XB2 b) (XP2 p)); cbn [In]; split; intros H; [destruct H as [->|[]]; now split | left; now symmetry | destruct H | destruct H; discriminate].
  - destruct OK as [B OK]. rewrite (covers_move2 t s i p B). cbn [pick2]. rewrite (proj1 (move_point2 t p B)). now apply IH.
  - destruct OK as [O1 O2]. cbn [pick2 Covers2]. rewrite in_app_iff, IHl, IHr by assumption. reflexivity.
Qed.
Lemma C118_pick_3d_pf : forall (s : scene3) (p : Point3 R) (i : N), SceneOk3 s -> (In i (pick3 s (XP3 p)) <-> Covers3 s i p).
Proof.
  induction s as [j b|t s IH|l IHl r IHr]; intros p i OK.
  - cbn [pick3 Covers3]. rewrite <- xle_iff3_inside. destruct (bb3_is_inside (XB3 b) (XP3 p)); cbn [In]; split; intros H; [destruct H as [->|[]]; now split | left; now symmetry | destruct H | destruct H; discriminate].
  - destruct OK as [B OK]. rewrite (covers_move3 t s i p B). cbn [pick3]. rewrite (proj1 (move_point3 t p B)). now apply IH.
  - destruct OK as [O1 O2]. cbn [pick3 Covers3]. rewrite in_app_iff, IHl, IHr by assumption. reflexivity.
Qed.
Lemma flatten_built2 s : forall t, Built2 affine2 (XT2 t) -> SceneOk2 s -> forall i x b, In (i, x, b) (flatten2 (XT2 t) s) -> exists t', x = XT2 t' /\ Built2 affine2 x.
Proof.
  induction s as [j c|u s IH|l IHl r IHr]; intros t B OK i x b I; cbn [flatten2] in I.
  - destruct I as [E|[]]. injection E as <- <- <-. now exists t.
  - destruct OK as [U OK]. rewrite xt2_and_then in I. apply (IH (Rcomp2 u t)) in I; [exact I | | exact OK]. rewrite <- xt2_and_then. now apply B2_and_then.
  - destruct OK as [O1 O2]. apply in_app_or in I. destruct I as [I|I]; [eapply IHl | eapply IHr]; eassumption.
Qed.
Lemma flatten_covers2 s : forall t, Built2 affine2 (XT2 t) -> SceneOk2 s -> forall i p,
  (exists q, Covers2 s i q /\ t2_transform_point (XT2 t) (XP2 q) = XP2 p) <->
  exists x b q, In (i, x, b) (flatten2 (XT2 t) s) /\ Rin2 q b /\ t2_transform_point x (XP2 q) = XP2 p.
Proof.
  induction s as [j c|u s IH|l IHl r IHr]; intros t B OK i p; cbn [flatten2].
  - cbn [Covers2]. split.
    + intros (q & [-> I] & E). exists (XT2 t), c, q. split; [now left|]. now split.
    + intros (x & b & q & [E|[]] & I & Q). injection E as <- <- <-. exists q. split; [split; [reflexivity | exact I] | exact Q].
  - destruct OK as [U OK]. rewrite xt2_and_then. rewrite <- (IH (Rcomp2 u t)); [| rewrite <- xt2_and_then; now apply B2_and_then | exact OK].
    rewrite <- xt2_and_then. destruct (built2_affine u U) as [U1 _], (built2_affine t B) as [T1 _]. cbn [Covers2].
    assert (K : forall q, t2_transform_point (t2_and_then (XT2 u) (XT2 t)) (XP2 q) = t2_transform_point (XT2 t) (t2_transform_point (XT2 u) (XP2 q))).
    { intros q. exact (proj1 (C44_and_then_affine_2d_pf u t q Rzero2 (mkRay2 q Rzero2) U1 T1)). }
    split.
    + intros (q & (q' & C & E) & Q). exists q'. split; [exact C|]. now rewrite K, E.
    + intros (q' & C & Q). rewrite K, tpoint_af2 in Q by exact U1. exists (img2 (t2_forward u) q'). split; [|exact Q]. exists q'. split; [exact C|]. now apply tpoint_af2.
  - destruct OK as [O1 O2]. cbn [Covers2]. specialize (IHl t B O1 i p). specialize (IHr t B O2 i p). split.
    + intros (q & [C|C] & Q); [destruct (proj1 IHl) as (x & b & q' & I & Z) | destruct (proj1 IHr) as (x & b & q' & I & Z)]; try (exists q; now split); exists x, b, q'; (split; [apply in_or_app; tauto | exact Z]).
    + intros (x & b & q & I & Z). apply in_app_or in I. destruct I as [I|I]; [destruct (proj2 IHl) as (q' & C & Q) | destruct (proj2 IHr) as (q' & C & Q)]; try (exists x, b, q; now split); exists q'; tauto.
Qed.
Lemma flatten_cast2 s : forall t r, Built2 affine2 (XT2 t) -> SceneOk2 s ->
  cast2 s (t2_transform_ray (t2_inverse (XT2 t)) (XR2 r)) =
  flat_map (fun e => match bb2_intersect_ray (XB2 (snd e)) (t2_transform_ray (t2_inverse (snd (fst e))) (XR2 r)) with Some (s0, _) => [(fst (fst e), s0)] | None => [] end) (flatten2 (XT2 t) s).
Proof.
  induction s as [j c|u s IH|l IHl r1 IHr]; intros t r B OK; cbn [flatten2 cast2].
  - cbn [flat_map fst snd]. now rewrite app_nil_r.
  - destruct OK as [U OK]. rewrite xt2_and_then. rewrite <- (IH (Rcomp2 u t)); [| rewrite <- xt2_and_then; now apply B2_and_then | exact OK]. f_equal.
    change (t2_inverse (XT2 (Rcomp2 u t))) with (t2_and_then (XT2 (Rinv_t2 t)) (XT2 (Rinv_t2 u))). rewrite !Rinv_t_eq2.
    destruct (built2_affine u U) as [_ U2], (built2_affine t B) as [_ T2]. symmetry.
    exact (proj2 (proj2 (C44_and_then_affine_2d_pf (Rinv_t2 t) (Rinv_t2 u) (r2_origin r) Rzero2 r T2 U2))).
  - destruct OK as [O1 O2]. rewrite flat_map_app. now rewrite IHl, IHr by assumption.
Qed.
Lemma id_ray2 r : t2_transform_ray (t2_inverse t2_identity) (XR2 r) = XR2 r.
Proof.
  change (t2_inverse t2_identity) with (XT2 (Rinv_t2 Rid2)). rewrite (xtray2 (Rinv_t2 Rid2)) by apply Rid2_affine.
  cbn [Rinv_t2 t2_forward]. change (t2_inv Rid2) with (t2_forward Rid2). unfold Rtray2. rewrite Rid2_img. destruct r as [o d]. f_equal. cbn [r2_origin r2_direction]. f_equal.
  destruct d. unfold Rlin2. cbn. f_equal; ring.
Qed.
Lemma flatten_built3 s : forall t, Built3 affine3 (XT3 t) -> SceneOk3 s -> forall i x b, In (i, x, b) (flatten3 (XT3 t) s) -> exists t', x = XT3 t' /\ Built3 affine3 x.
Proof.
  induction s as [j c|u s IH|l IHl r IHr]; intros t B OK i x b I; cbn [flatten3] in I.
  - destruct I as [E|[]]. injection E as <- <- <-. now exists t.
  - destruct OK as [U OK]. rewrite xt3_and_then in I. apply (IH (Rcomp3 u t)) in I; [exact I | | exact OK]. rewrite <- xt3_and_then. now apply B3_and_then.
  - destruct OK as [O1 O2]. apply in_app_or in I. destruct I as [I|I]; [eapply IHl | eapply IHr]; eassumption.
Qed.
Lemma flatten_covers3 s : forall t, Built3 affine3 (XT3 t) -> SceneOk3 s -> forall i p,
  (exists q, Covers3 s i q /\ t3_transform_point (XT3 t) (XP3 q) = XP3 p) <->
  exists x b q, In (i, x, b) (flatten3 (XT3 t) s) /\ Rin3 q b /\ t3_transform_point x (XP3 q) = XP3 p.
Proof.
  induction s as [j c|u s IH|l IHl r IHr]; intros t B OK i p; cbn [flatten3].
  - cbn [Covers3]. split.
    + intros (q & [-> I] & E). exists (XT3 t), c, q. split; [now left|]. now split.
    + intros (x & b & q & [E|[]] & I & Q). injection E as <- <- <-. exists q. split; [split; [reflexivity | exact I] | exact Q].
  - destruct OK as [U OK]. rewrite xt3_and_then. rewrite <- (IH (Rcomp3 u t)); [| rewrite <- xt3_and_then; now apply B3_and_then | exact OK].
    rewrite <- xt3_and_then. destruct (built3_affine u U) as [U1 _], (built3_affine t B) as [T1 _]. cbn [Covers3].
    assert (K : forall q, t3_transform_point (t3_and_then (XT3 u) (XT3 t)) (XP3 q) = t3_transform_point (XT3 t) (t3_transform_point (XT3 u) (XP3 q))).
    { intros q. exact (proj1 (C44_and_then_affine_3d_pf u t q Rzero3 (mkRay3 q Rzero3) U1 T1)). }
    split.
    + intros (q & (q' & C & E) & Q). exists q'. split; [exact C|]. now rewrite K, E.
    + intros (q' & C & Q). rewrite K, tpoint_af3 in Q by exact U1. exists (img3 (t3_forward u) q'). split; [|exact Q]. exists q'. split; [exact C|]. now apply tpoint_af3.
  - destruct OK as [O1 O2]. cbn [Covers3]. specialize (IHl t B O1 i p). specialize (IHr t B O2 i p). split.
    + intros (q & [C|C] & Q); [destruct (proj1 IHl) as (x & b & q' & I & Z) | destruct (proj1 IHr) as (x & b & q' & I & Z)]; try (exists q; now split); exists x, b, q'; (split; [apply in_or_app; tauto | exact Z]).
    + intros (x & b & q & I & Z). apply in_app_or in I. destruct I as [I|I]; [destruct (proj2 IHl) as (q' & C & Q) | destruct (proj2 IHr) as (q' & C & Q)]; try (exists x, b, q; now split); exists q'; tauto.
Qed.
Lemma flatten_cast3 s : forall t r, Built3 affine3 (XT3 t) -> SceneOk3 s ->
  cast3 s (t3_transform_ray (t3_inverse (XT3 t)) (XR3 r)) =
  flat_map (fun e => match bb3_intersect_ray (XB3 (snd e)) (t3_transform_ray (t3_inverse (snd (fst e))) (XR3 r)) with Some (s0, _) => [(fst (fst e), s0)] | None => [] end) (flatten3 (XT3 t) s).
Proof.
  induction s as [j c|u s IH|l IHl r1 IHr]; intros t r B OK; cbn [flatten3 cast3].
  - cbn [flat_map fst snd]. now rewrite app_nil_r.
  - destruct OK as [U OK]. rewrite xt3_and_then. rewrite <- (IH (Rcomp3 u t)); [| rewrite <- xt3_and_then; now apply B3_and_then | exact OK]. f_equal.
    change (t3_inverse (XT3 (Rcomp3 u t))) with (t3_and_then (XT3 (Rinv_t3 t)) (XT3 (Rinv_t3 u))). rewrite !Rinv_t_eq3.
    destruct (built3_affine u U) as [_ U2], (built3_affine t B) as [_ T2]. symmetry.
    exact (proj2 (proj2 (C44_and_then_affine_3d_pf (Rinv_t3 t) (Rinv_t3 u) (r3_origin r) Rzero3 r T2 U2))).
  - destruct OK as [O1 O2]. rewrite flat_map_app. now rewrite IHl, IHr by assumption.
Qed.
Lemma id_ray3 r : t3_transform_ray (t3_inverse t3_identity) (XR3 r) = XR3 r.
Proof.
  change (t3_inverse t3_identity) with (XT3 (Rinv_t3 Rid3)). rewrite (xtray3 (Rinv_t3 Rid3)) by apply Rid3_affine.
  cbn [Rinv_t3 t3_forward]. change (t3_inv Rid3) with (t3_forward Rid3). unfold Rtray3. rewrite Rid3_img. destruct r as [o d]. f_equal. cbn [r3_origin r3_direction]. f_equal.
  destruct d. unfold Rlin3. cbn. f_equal; ring.
Qed.
Lemma C118_flatten_covers_2d_pf : forall (s : scene2) (i : N) (p : Point2 R), SceneOk2 s ->
  (Covers2 s i p <-> exists (t : Transform2 xreal) (b : BoundingBox2 R) (q : Point2 R), In (i, t, b) (flatten2 t2_identity s) /\ Rin2 q b /\ t2_transform_point t (XP2 q) = XP2 p).
Proof.
  intros s i p OK. rewrite Rid2_eq. rewrite <- (flatten_covers2 s Rid2); [| rewrite <- Rid2_eq; constructor | exact OK].
  assert (K : forall q, t2_transform_point (XT2 Rid2) (XP2 q) = XP2 q) by (intros q; rewrite tpoint_af2 by apply Rid2_affine; now rewrite Rid2_img).
  split.
  - intros C. exists p. split; [exact C | apply K].
  - intros (q & C & E). rewrite K in E. apply XP2_inj in E. now subst.
Qed.
Lemma C118_flatten_covers_3d_pf : forall (s : scene3) (i : N) (p : Point3 R), SceneOk3 s ->
  (Covers3 s i p <-> exists (t : Transform3 xreal) (b : BoundingBox3 R) (q : Point3 R), In (i, t, b) (flatten3 t3_identity s) /\ Rin3 q b /\ t3_transform_point t (XP3 q) = XP3 p).
Proof.
  intros s i p OK. rewrite Rid3_eq. rewrite <- (flatten_covers3 s Rid3); [| rewrite <- Rid3_eq; constructor | exact OK].
  assert (K : forall q, t3_transform_point (XT3 Rid3) (XP3 q) = XP3 q) by (intros q; rewrite tpoint_af3 by apply Rid3_affine; now rewrite Rid3_img).
  split.
  - intros C. exists p. split; [exact C | apply K].
  - intros (q & C & E). rewrite K in E. apply XP3_inj in E. now subst.
Qed.
Lemma C118_flatten_cast_2d_pf : forall (s : scene2) (r : Ray2 R), SceneOk2 s ->
  cast2 s (XR2 r) =
  flat_map (fun '(i, t, b) => match bb2_intersect_ray (XB2 b) (t2_transform_ray (t2_inverse t) (XR2 r)) with Some (s0, _) => [(i, s0)] | None => [] end) (flatten2 t2_identity s) /\
  (forall (i : N) (t : Transform2 xreal) (b : BoundingBox2 R), In (i, t, b) (flatten2 t2_identity s) -> Built2 affine2 t).
Proof.
  intros s r OK. assert (B : Built2 affine2 (XT2 Rid2)) by (rewrite <- Rid2_eq; constructor). split.
  - pose proof (flatten_cast2 s Rid2 r B OK) as K. rewrite <- Rid2_eq in K. rewrite id_ray2 in K. rewrite K. apply flat_map_ext. intros [[i t] b]. reflexivity.
  - intros i t b I. rewrite Rid2_eq in I. destruct (flatten_built2 s Rid2 B OK i t b I) as (t' & _ & H). exact H.
Qed.
Lemma C118_flatten_cast_3d_pf : forall (s : scene3) (r : Ray3 R), SceneOk3 s ->
  cast3 s (XR3 r) =
  flat_map (fun '(i, t, b) => match bb3_intersect_ray (XB3 b) (t3_transform_ray (t3_inverse t) (XR3 r)) with Some (s0, _) => [(i, s0)] | None => [] end) (flatten3 t3_identity s) /\
  (forall (i : N) (t : Transform3 xreal) (b : BoundingBox3 R), In (i, t, b) (flatten3 t3_identity s) -> Built3 affine3 t).
Proof.
  intros s r OK. assert (B : Built3 affine3 (XT3 Rid3)) by (rewrite <- Rid3_eq; constructor). split.
  - pose proof (flatten_cast3 s Rid3 r B OK) as K. rewrite <- Rid3_eq in K. rewrite id_ray3 in K. rewrite K. apply flat_map_ext. intros [[i t] b]. reflexivity.
  - intros i t b I. rewrite Rid3_eq in I. destruct (flatten_built3 s Rid3 B OK i t b I) as (t' & _ & H). exact H.
Qed.
Definition ev2 (x : R) : Vector2 R := mkVector2 x 0.
Definition eb2 (lo : R) : BoundingBox2 R := mkBB2 (mkPoint2 lo 0) (mkPoint2 (lo + 1) 1).
Definition er2 : Ray2 R := mkRay2 (mkPoint2 0 (1 / 2)) (mkVector2 1 0).
Definition eT2 (x : R) : Transform2 R := mkT2 (m3_translate (O := R_ops) (ev2 x)) (m3_translate (O := R_ops) (v2_neg (O := R_ops) (ev2 x))).
Definition ev3 (x : R) : Vector3 R := mkVector3 x 0 0.
Definition eb3 (lo : R) : BoundingBox3 R := mkBB3 (mkPoint3 lo 0 0) (mkPoint3 (lo + 1) 1 1).
Definition er3 : Ray3 R := mkRay3 (mkPoint3 0 (1 / 2) (1 / 2)) (mkVector3 1 0 0).
Definition eT3 (x : R) : Transform3 R := mkT3 (m4_translate (O := R_ops) (ev3 x)) (m4_translate (O := R_ops) (v3_neg (O := R_ops) (ev3 x))).
(* object 1: a unit box moved twice by 5; object 2: a box at 20 *)
Definition exscene2 : scene2 := SBoth2 (SMove2 (eT2 5) (SMove2 (eT2 5) (SBox2 1%N (eb2 0)))) (SBox2 2%N (eb2 20)).
Lemma eT_built2 x : Built2 affine2 (XT2 (eT2 x)).
Proof. exact (B2_translate affine2 (ev2 x)). Qed.
Lemma exscene_facts2 : SceneOk2 exscene2 /\ r2_direction er2 <> Rzero2 /\ Clear2 exscene2 er2 /\ Covers2 exscene2 1%N (Rat2 er2 10).
Proof.
  split; [|split; [|split]].
  - cbn [SceneOk2 exscene2]. repeat split; try apply eT_built2; unfold eb2; cbn; lra.
  - unfold er2, Rzero2. cbn [r2_direction]. intros E. injection E. lra.
  - cbn [Clear2 exscene2]. split.
    + intros r1 E1. rewrite (move_ray2 (eT2 5) er2 (eT_built2 5)) in E1. apply XR2_inj in E1. subst r1. intros r2 E2. rewrite (move_ray2 (eT2 5) _ (eT_built2 5)) in E2. apply XR2_inj in E2. subst r2.
      unfold Rtray2. rewrite !img2_affine by (repeat split). unfold off_faces2, off_plane, eb2, er2, eT2, ev2, Rlin2. cbn. repeat split; lra.
    + unfold off_faces2, off_plane, eb2, er2. cbn. repeat split; lra.
  - unfold exscene2. cbn [Covers2]. left. change (Covers2 (SMove2 (eT2 5) (SMove2 (eT2 5) (SBox2 1%N (eb2 0)))) 1%N (Rat2 er2 10)).
    apply (covers_move2 _ _ _ _ (eT_built2 5)). apply (covers_move2 _ _ _ _ (eT_built2 5)). rewrite !img2_affine by (repeat split). cbn [Covers2]. split; [reflexivity|].
    unfold Rin2, eb2, er2, eT2, ev2, Rat2. cbn. repeat split; lra.
Qed.
(* object 1: a unit box moved twice by 5; object 2: a box at 20 *)
Definition exscene3 : scene3 := SBoth3 (SMove3 (eT3 5) (SMove3 (eT3 5) (SBox3 1%N (eb3 0)))) (SBox3 2%N (eb3 20)).
Lemma eT_built3 x : Built3 affine3 (XT3 (eT3 x)).
Proof. exact (B3_translate affine3 (ev3 x)). Qed.
Lemma exscene_facts3 : SceneOk3 exscene3 /\ r3_direction er3 <> Rzero3 /\ Clear3 exscene3 er3 /\ Covers3 exscene3 1%N (Rat3 er3 10).
Proof.
  split; [|split; [|split]].
  - cbn [SceneOk3 exscene3]. repeat split; try apply eT_built3; unfold eb3; cbn; lra.
  - unfold er3, Rzero3. cbn [r3_direction]. intros E. injection E. lra.
  - cbn [Clear3 exscene3]. split.
    + intros r1 E1. rewrite (move_ray3 (eT3 5) er3 (eT_built3 5)) in E1. apply XR3_inj in E1. subst r1. intros r2 E2. rewrite (move_ray3 (eT3 5) _ (eT_built3 5)) in E2. apply XR3_inj in E2. subst r2.
      unfold Rtray3. rewrite !img3_affine by (repeat split). unfold off_faces3, off_plane, eb3, er3, eT3, ev3, Rlin3. cbn. repeat split; lra.
    + unfold off_faces3, off_plane, eb3, er3. cbn. repeat split; lra.
  - unfold exscene3. cbn [Covers3]. left. change (Covers3 (SMove3 (eT3 5) (SMove3 (eT3 5) (SBox3 1%N (eb3 0)))) 1%N (Rat3 er3 10)).
    apply (covers_move3 _ _ _ _ (eT_built3 5)). apply (covers_move3 _ _ _ _ (eT_built3 5)). rewrite !img3_affine by (repeat split). cbn [Covers3]. split; [reflexivity|].
    unfold Rin3, eb3, er3, eT3, ev3, Rat3. cbn. repeat split; lra.
Qed.
