(** Proofs: moving boxes (C111). *)
From Coq Require Import Bool NArith ZArith Reals List Lra Lia.
From Flocq Require Import Core.Zaux Core.Raux.
From Verif Require Import Scalar Types Vector2 Vector3 Point2 Point3 Ray BoundingBox2 BoundingBox3 Float
  XReal OrdLaws Arith SpecOrder SpecStruct SpecFloat SpecErr SpecReal SpecBox SpecSweep OrderProofs OrderBox FloatX XArith FloatLaws SlabBase FloatSym ExVals ErrBase ExactBase ExactVec ExactBox ExactTransBox ExactTransRay FloatMono FloatClip FloatOct.
Local Open Scope R_scope.
Section A.
Context {A : arith}.
Implicit Types x y z w o d s t u : num A.
Let L := num_OrdLaws A.
Lemma xmul_fin_nan (x y : xreal) a b : x = Fin a -> y = Fin b -> xnan (xmul x y) = false.
Proof. intros -> ->. reflexivity. Qed.
Lemma add_mono_o o o' d x : Finite o -> Finite o' -> Finite d -> Finite x -> Le o o' -> Le (sadd o (smul d x)) (sadd o' (smul d x)).
Proof.
  rewrite !Finite_tx, !Le_tx. intros [ro Eo] [ro' Eo'] [rd Ed] [rx Ex]. rewrite !tx_add, !tx_mul, Eo, Eo', Ed, Ex, !xle_fin. intros H. apply xr_mono. cbn [xmul].
  assert (N : xnan (xr A (Fin (rd * rx))) = false) by now rewrite xr_nan. destruct (xr A (Fin (rd * rx))); cbn [xadd]; try easy. apply xle_fin. lra.
Qed.
Lemma at_nan o d x : Finite o -> Finite d -> Finite x -> NoNaN (sadd o (smul d x)).
Proof. intros Fo Fd Fx. pose proof (add_mono_o o o d x Fo Fo Fd Fx) as K. destruct (Le_nan L _ _ (K ltac:(apply (Le_refl L); unfold NoNaN; rewrite tx_nan, (Finite_real _ Fo); reflexivity))). assumption. Qed.
(* one axis of a moved box *)
Lemma moved_axis lo hi d t : Finite lo -> Finite hi -> Finite d -> Finite t -> Le lo hi ->
  tx (s_min (sadd lo (smul d t)) (sadd hi (smul d t))) = tx (sadd lo (smul d t)) /\ tx (s_max (sadd lo (smul d t)) (sadd hi (smul d t))) = tx (sadd hi (smul d t)).
Proof. intros F1 F2 Fd Ft H. pose proof (add_mono_o lo hi d t F1 F2 Fd Ft H) as K. apply Le_tx in K. rewrite tx_smin, tx_smax. split; [now apply xmin_l | now apply xmax_r]. Qed.
Lemma between_times o d s u t : Finite o -> Finite d -> Finite s -> Finite u -> Finite t -> Le s u -> Le u t ->
  (Le (sadd o (smul d s)) (sadd o (smul d u)) /\ Le (sadd o (smul d u)) (sadd o (smul d t))) \/ (Le (sadd o (smul d t)) (sadd o (smul d u)) /\ Le (sadd o (smul d u)) (sadd o (smul d s))).
Proof. intros Fo Fd Fs Fu Ft H1 H2. destruct (fin_sign d Fd); [left | right]; split; first [now apply at_mono_pos | now apply at_mono_neg]. Qed.
End A.
Lemma shift_fin (x y : R) : sadd (Fin x : num EXACT) (Fin y) = Fin (x + y). Proof. reflexivity. Qed.
Lemma moved2_coord {A : arith} (b : BoundingBox2 (num A)) v t d : Ordered2 b -> BFinite2 b -> VFinite2 v -> Finite t ->
  tx (coord2 (bb2_min (moved2 b v t)) d) = tx (sadd (coord2 (bb2_min b) d) (smul (vcoord2 v d) t)) /\ tx (coord2 (bb2_max (moved2 b v t)) d) = tx (sadd (coord2 (bb2_max b) d) (smul (vcoord2 v d) t)).
Proof. intros O [F1 F2] Fv Ft. pose proof (moved_axis _ _ _ _ (F1 d) (F2 d) (Fv d) Ft (O d)) as K. destruct d; exact K. Qed.
Lemma at2_coord {A : arith} (p : Point2 (num A)) v t d : coord2 (r2_at (r2_new p v) t) d = sadd (coord2 p d) (smul (vcoord2 v d) t).
Proof. now destruct d. Qed.
Lemma moved3_coord {A : arith} (b : BoundingBox3 (num A)) v t d : Ordered3 b -> BFinite3 b -> VFinite3 v -> Finite t ->
  tx (coord3 (bb3_min (moved3 b v t)) d) = tx (sadd (coord3 (bb3_min b) d) (smul (vcoord3 v d) t)) /\ tx (coord3 (bb3_max (moved3 b v t)) d) = tx (sadd (coord3 (bb3_max b) d) (smul (vcoord3 v d) t)).
Proof. intros O [F1 F2] Fv Ft. pose proof (moved_axis _ _ _ _ (F1 d) (F2 d) (Fv d) Ft (O d)) as K. destruct d; exact K. Qed.
Lemma at3_coord {A : arith} (p : Point3 (num A)) v t d : coord3 (r3_at (r3_new p v) t) d = sadd (coord3 p d) (smul (vcoord3 v d) t).
Proof. now destruct d. Qed.
Lemma C111_moved_points_2d_pf : forall (A : arith) (b : BoundingBox2 (num A)) (v : Vector2 (num A)) (t : num A) (p : Point2 (num A)), Ordered2 b -> BFinite2 b -> VFinite2 v -> Finite t ->
  Ordered2 (moved2 b v t) /\ (bb2_is_inside b p = true -> bb2_is_inside (moved2 b v t) (r2_at (r2_new p v) t) = true).
Proof.
  intros A b v t p O F Fv Ft. pose proof (num_OrdLaws A) as L. pose proof F as [F1 F2]. split.
  - intros d. destruct (moved2_coord b v t d O F Fv Ft) as [E1 E2]. apply (Le_txl _ _ _ E1), (Le_txr _ _ _ E2). apply add_mono_o; [apply F1 | apply F2 | apply Fv | exact Ft | apply O].
  - intros I. apply bb2_is_inside_iff in I. destruct I as [I1 I2]. assert (Fp : Finite2 p).
    { intros d. specialize (I1 d). specialize (I2 d). specialize (F1 d). specialize (F2 d). apply Le_tx in I1, I2. rewrite (Finite_real _ F1) in I1. rewrite (Finite_real _ F2) in I2. apply Finite_tx. destruct (tx (coord2 p d)); try discriminate. eauto. }
    apply bb2_is_inside_iff. split; intros d; destruct (moved2_coord b v t d O F Fv Ft) as [E1 E2]; rewrite at2_coord; [apply (Le_txl _ _ _ E1) | apply (Le_txr _ _ _ E2)]; apply add_mono_o; try apply F1; try apply F2; try apply Fp; try apply Fv; try exact Ft; [apply I1 | apply I2].
Qed.
Lemma C111_moved_points_3d_pf : forall (A : arith) (b : BoundingBox3 (num A)) (v : Vector3 (num A)) (t : num A) (p : Point3 (num A)), Ordered3 b -> BFinite3 b -> VFinite3 v -> Finite t ->
  Ordered3 (moved3 b v t) /\ (bb3_is_inside b p = true -> bb3_is_inside (moved3 b v t) (r3_at (r3_new p v) t) = true).
Proof.
  intros A b v t p O F Fv Ft. pose proof (num_OrdLaws A) as L. pose proof F as [F1 F2]. split.
  - intros d. destruct (moved3_coord b v t d O F Fv Ft) as [E1 E2]. apply (Le_txl _ _ _ E1), (Le_txr _ _ _ E2). apply add_mono_o; [apply F1 | apply F2 | apply Fv | exact Ft | apply O].
  - intros I. apply bb3_is_inside_iff in I. destruct I as [I1 I2]. assert (Fp : Finite3 p).
    { intros d. specialize (I1 d). specialize (I2 d). specialize (F1 d). specialize (F2 d). apply Le_tx in I1, I2. rewrite (Finite_real _ F1) in I1. rewrite (Finite_real _ F2) in I2. apply Finite_tx. destruct (tx (coord3 p d)); try discriminate. eauto. }
    apply bb3_is_inside_iff. split; intros d; destruct (moved3_coord b v t d O F Fv Ft) as [E1 E2]; rewrite at3_coord; [apply (Le_txl _ _ _ E1) | apply (Le_txr _ _ _ E2)]; apply add_mono_o; try apply F1; try apply F2; try apply Fp; try apply Fv; try exact Ft; [apply I1 | apply I2].
Qed.
Lemma C111_swept_contains_moved_2d_pf : forall (A : arith) (b : BoundingBox2 (num A)) (v : Vector2 (num A)) (s u t : num A), Ordered2 b -> BFinite2 b -> VFinite2 v -> Finite s -> Finite u -> Finite t -> Le s u -> Le u t ->
  Ordered2 (swept2 b v s t) /\ Incl2 (moved2 b v u) (swept2 b v s t).
Proof.
  intros A b v s u t O F Fv Fs Fu Ft H1 H2. pose proof (num_OrdLaws A) as L. pose proof F as [F1 F2].
  destruct (C111_moved_points_2d_pf A b v s (bb2_min b) O F Fv Fs) as [Os _]. destruct (C111_moved_points_2d_pf A b v u (bb2_min b) O F Fv Fu) as [Ou _]. destruct (C111_moved_points_2d_pf A b v t (bb2_min b) O F Fv Ft) as [Ot _].
  assert (Ow : Ordered2 (swept2 b v s t)) by now apply (bb2_union_ordered L). split; [exact Ow|]. apply (Incl2_iff L); [exact Ou|].
  pose proof (proj1 (Incl2_iff L _ _ Os) (bb2_union_l L _ _ Os Ot)) as [S1 S2]. pose proof (proj1 (Incl2_iff L _ _ Ot) (bb2_union_r L _ _ Os Ot)) as [T1 T2].
  split; intros d; destruct (moved2_coord b v s d O F Fv Fs) as [Es1 Es2]; destruct (moved2_coord b v u d O F Fv Fu) as [Eu1 Eu2]; destruct (moved2_coord b v t d O F Fv Ft) as [Et1 Et2].
  - apply (Le_txr _ _ _ Eu1). destruct (between_times _ _ _ _ _ (F1 d) (Fv d) Fs Fu Ft H1 H2) as [[K _] | [K _]].
    + apply (Le_trans L _ _ _ (S1 d)). now apply (Le_txl _ _ _ Es1).
    + apply (Le_trans L _ _ _ (T1 d)). now apply (Le_txl _ _ _ Et1).
  - apply (Le_txl _ _ _ Eu2). destruct (between_times _ _ _ _ _ (F2 d) (Fv d) Fs Fu Ft H1 H2) as [[_ K] | [_ K]].
    + refine (Le_trans L _ _ _ _ (T2 d)). now apply (Le_txr _ _ _ Et2).
    + refine (Le_trans L _ _ _ _ (S2 d)). now apply (Le_txr _ _ _ Es2).
Qed.
Lemma C111_swept_contains_moved_3d_pf : forall (A : arith) (b : BoundingBox3 (num A)) (v : Vector3 (num A)) (s u t : num A), Ordered3 b -> BFinite3 b -> VFinite3 v -> Finite s -> Finite u -> Finite t -> Le s u -> Le u t ->
  Ordered3 (swept3 b v s t) /\ Incl3 (moved3 b v u) (swept3 b v s t).
Proof.
  intros A b v s u t O F Fv Fs Fu Ft H1 H2. pose proof (num_OrdLaws A) as L. pose proof F as [F1 F2].
  destruct (C111_moved_points_3d_pf A b v s (bb3_min b) O F Fv Fs) as [Os _]. destruct (C111_moved_points_3d_pf A b v u (bb3_min b) O F Fv Fu) as [Ou _]. destruct (C111_moved_points_3d_pf A b v t (bb3_min b) O F Fv Ft) as [Ot _].
  assert (Ow : Ordered3 (swept3 b v s t)) by now apply (bb3_union_ordered L). split; [exact Ow|]. apply (Incl3_iff L); [exact Ou|].
  pose proof (proj1 (Incl3_iff L _ _ Os) (bb3_union_l L _ _ Os Ot)) as [S1 S2]. pose proof (proj1 (Incl3_iff L _ _ Ot) (bb3_union_r L _ _ Os Ot)) as [T1 T2].
  split; intros d; destruct (moved3_coord b v s d O F Fv Fs) as [Es1 Es2]; destruct (moved3_coord b v u d O F Fv Fu) as [Eu1 Eu2]; destruct (moved3_coord b v t d O F Fv Ft) as [Et1 Et2].
  - apply (Le_txr _ _ _ Eu1). destruct (between_times _ _ _ _ _ (F1 d) (Fv d) Fs Fu Ft H1 H2) as [[K _] | [K _]].
    + apply (Le_trans L _ _ _ (S1 d)). now apply (Le_txl _ _ _ Es1).
    + apply (Le_trans L _ _ _ (T1 d)). now apply (Le_txl _ _ _ Et1).
  - apply (Le_txl _ _ _ Eu2). destruct (between_times _ _ _ _ _ (F2 d) (Fv d) Fs Fu Ft H1 H2) as [[_ K] | [_ K]].
    + refine (Le_trans L _ _ _ _ (T2 d)). now apply (Le_txr _ _ _ Et2).
    + refine (Le_trans L _ _ _ _ (S2 d)). now apply (Le_txr _ _ _ Es2).
Qed.
Lemma C111_swept_is_conservative_2d_pf : forall (A : arith) (b c : BoundingBox2 (num A)) (v : Vector2 (num A)) (s u t : num A) (p : Point2 (num A)), Ordered2 b -> BFinite2 b -> VFinite2 v -> Finite s -> Finite u -> Finite t -> Le s u -> Le u t ->
  (bb2_is_inside b p = true -> bb2_is_inside (swept2 b v s t) (r2_at (r2_new p v) u) = true) /\
  (Ordered2 c -> bb2_overlaps (moved2 b v u) c = true -> bb2_overlaps (swept2 b v s t) c = true).
Proof.
  intros A b c v s u t p O F Fv Fs Fu Ft H1 H2. pose proof (num_OrdLaws A) as L. destruct (C111_swept_contains_moved_2d_pf A b v s u t O F Fv Fs Fu Ft H1 H2) as [Ow I]. destruct (C111_moved_points_2d_pf A b v u p O F Fv Fu) as [Ou K]. split.
  - intros H. apply bb2_is_inside_iff, I, bb2_is_inside_iff, K, H.
  - intros Oc H. apply (bb2_overlaps_iff L) in H; [|assumption..]. apply (bb2_overlaps_iff L); [assumption..|]. destruct H as (q & Q1 & Q2). exists q. split; [now apply I | exact Q2].
Qed.
Lemma C111_swept_is_conservative_3d_pf : forall (A : arith) (b c : BoundingBox3 (num A)) (v : Vector3 (num A)) (s u t : num A) (p : Point3 (num A)), Ordered3 b -> BFinite3 b -> VFinite3 v -> Finite s -> Finite u -> Finite t -> Le s u -> Le u t ->
  (bb3_is_inside b p = true -> bb3_is_inside (swept3 b v s t) (r3_at (r3_new p v) u) = true) /\
  (Ordered3 c -> bb3_overlaps (moved3 b v u) c = true -> bb3_overlaps (swept3 b v s t) c = true).
Proof.
  intros A b c v s u t p O F Fv Fs Fu Ft H1 H2. pose proof (num_OrdLaws A) as L. destruct (C111_swept_contains_moved_3d_pf A b v s u t O F Fv Fs Fu Ft H1 H2) as [Ow I]. destruct (C111_moved_points_3d_pf A b v u p O F Fv Fu) as [Ou K]. split.
  - intros H. apply bb3_is_inside_iff, I, bb3_is_inside_iff, K, H.
  - intros Oc H. apply (bb3_overlaps_iff L) in H; [|assumption..]. apply (bb3_overlaps_iff L); [assumption..|]. destruct H as (q & Q1 & Q2). exists q. split; [now apply I | exact Q2].
Qed.
Lemma C111_swept_is_smallest_2d_pf : forall (A : arith) (b c : BoundingBox2 (num A)) (v : Vector2 (num A)) (s t : num A), Ordered2 b -> BFinite2 b -> VFinite2 v -> Finite s -> Finite t ->
  Incl2 (moved2 b v s) c -> Incl2 (moved2 b v t) c -> Incl2 (swept2 b v s t) c.
Proof.
  intros A b c v s t O F Fv Fs Ft H1 H2. pose proof (num_OrdLaws A) as L. destruct (C111_moved_points_2d_pf A b v s (bb2_min b) O F Fv Fs) as [Os _]. destruct (C111_moved_points_2d_pf A b v t (bb2_min b) O F Fv Ft) as [Ot _]. now apply (bb2_union_least L).
Qed.
Lemma C111_swept_is_smallest_3d_pf : forall (A : arith) (b c : BoundingBox3 (num A)) (v : Vector3 (num A)) (s t : num A), Ordered3 b -> BFinite3 b -> VFinite3 v -> Finite s -> Finite t ->
  Incl3 (moved3 b v s) c -> Incl3 (moved3 b v t) c -> Incl3 (swept3 b v s t) c.
Proof.
  intros A b c v s t O F Fv Fs Ft H1 H2. pose proof (num_OrdLaws A) as L. destruct (C111_moved_points_3d_pf A b v s (bb3_min b) O F Fv Fs) as [Os _]. destruct (C111_moved_points_3d_pf A b v t (bb3_min b) O F Fv Ft) as [Ot _]. now apply (bb3_union_least L).
Qed.
Lemma moved2_exact (b c : BoundingBox2 R) (v : Vector2 R) (t : R) : Rordered2 b -> Rordered2 c ->
  bb2_overlaps (moved2 (XB2 b) (XV2 v) (Fin t)) (XB2 c) = bb2_is_inside (grown2 (XB2 c) (XB2 b)) (r2_at (XR2 (mkRay2 (mkPoint2 0 0) v)) (Fin t)) /\ grown2 (XB2 c) (XB2 b) = XB2 (Rgrown2 c b) /\ Rordered2 (Rgrown2 c b).
Proof.
  intros Ob Oc. assert (Og : Rordered2 (Rgrown2 c b)) by (unfold Rordered2, Rgrown2 in *; cbn [bb2_min bb2_max p2x p2y] in *; lra).
  assert (Eg : grown2 (XB2 c) (XB2 b) = XB2 (Rgrown2 c b)).
  { change (bb2_new (XP2 (bb2_min (Rgrown2 c b))) (XP2 (bb2_max (Rgrown2 c b))) = XB2 (Rgrown2 c b)). rewrite xbb2_new. f_equal. apply Rnew_ordered2; apply Og. }
  split; [|split; [exact Eg | exact Og]]. rewrite Eg, xr2_at.
  set (p := mkPoint2 (p2x (bb2_min b) + v2x v * t) (p2y (bb2_min b) + v2y v * t)). set (q := mkPoint2 (p2x (bb2_max b) + v2x v * t) (p2y (bb2_max b) + v2y v * t)).
  assert (Em : moved2 (XB2 b) (XV2 v) (Fin t) = XB2 (mkBB2 p q)).
  { change (bb2_new (XP2 p) (XP2 q) = XB2 (mkBB2 p q)). rewrite xbb2_new. f_equal. unfold Rordered2 in Ob. apply Rnew_ordered2; cbn [p q p2x p2y]; lra. }
  rewrite Em. apply eq_iff_eq_true. rewrite xover2, xle_iff2_inside. unfold Rover2, Rin2, Rat2, Rgrown2, p, q. cbn [bb2_min bb2_max p2x p2y v2x v2y r2_origin r2_direction]. lra.
Qed.
Lemma moved3_exact (b c : BoundingBox3 R) (v : Vector3 R) (t : R) : Rordered3 b -> Rordered3 c ->
  bb3_overlaps (moved3 (XB3 b) (XV3 v) (Fin t)) (XB3 c) = bb3_is_inside (grown3 (XB3 c) (XB3 b)) (r3_at (XR3 (mkRay3 (mkPoint3 0 0 0) v)) (Fin t)) /\ grown3 (XB3 c) (XB3 b) = XB3 (Rgrown3 c b) /\ Rordered3 (Rgrown3 c b).
Proof.
  intros Ob Oc. assert (Og : Rordered3 (Rgrown3 c b)) by (unfold Rordered3, Rgrown3 in *; cbn [bb3_min bb3_max p3x p3y p3z] in *; lra).
  assert (Eg : grown3 (XB3 c) (XB3 b) = XB3 (Rgrown3 c b)).
  { change (bb3_new (XP3 (bb3_min (Rgrown3 c b))) (XP3 (bb3_max (Rgrown3 c b))) = XB3 (Rgrown3 c b)). rewrite xbb3_new. f_equal. apply Rnew_ordered3; apply Og. }
  split; [|split; [exact Eg | exact Og]]. rewrite Eg, xr3_at.
  set (p := mkPoint3 (p3x (bb3_min b) + v3x v * t) (p3y (bb3_min b) + v3y v * t) (p3z (bb3_min b) + v3z v * t)). set (q := mkPoint3 (p3x (bb3_max b) + v3x v * t) (p3y (bb3_max b) + v3y v * t) (p3z (bb3_max b) + v3z v * t)).
  assert (Em : moved3 (XB3 b) (XV3 v) (Fin t) = XB3 (mkBB3 p q)).
  { change (bb3_new (XP3 p) (XP3 q) = XB3 (mkBB3 p q)). rewrite xbb3_new. f_equal. unfold Rordered3 in Ob. apply Rnew_ordered3; cbn [p q p3x p3y p3z]; lra. }
  rewrite Em. apply eq_iff_eq_true. rewrite xover3, xle_iff3_inside. unfold Rover3, Rin3, Rat3, Rgrown3, p, q. cbn [bb3_min bb3_max p3x p3y p3z v3x v3y v3z r3_origin r3_direction]. lra.
Qed.
Lemma C111_grown_exact_2d_pf : forall (b c : BoundingBox2 R) (v : Vector2 R) (t : R), Rordered2 b -> Rordered2 c ->
  bb2_overlaps (moved2 (XB2 b) (XV2 v) (Fin t)) (XB2 c) = bb2_is_inside (grown2 (XB2 c) (XB2 b)) (r2_at (XR2 (mkRay2 (mkPoint2 0 0) v)) (Fin t)).
Proof.
  intros b c v t Ob Oc. exact (proj1 (moved2_exact b c v t Ob Oc)).
Qed.
Lemma C111_grown_exact_3d_pf : forall (b c : BoundingBox3 R) (v : Vector3 R) (t : R), Rordered3 b -> Rordered3 c ->
  bb3_overlaps (moved3 (XB3 b) (XV3 v) (Fin t)) (XB3 c) = bb3_is_inside (grown3 (XB3 c) (XB3 b)) (r3_at (XR3 (mkRay3 (mkPoint3 0 0 0) v)) (Fin t)).
Proof.
  intros b c v t Ob Oc. exact (proj1 (moved3_exact b c v t Ob Oc)).
Qed.
Lemma C111_time_of_impact_exact_2d_pf : forall (b c : BoundingBox2 R) (v : Vector2 R), Rordered2 b -> Rordered2 c -> v <> Rzero2 -> off_faces2 (Rgrown2 c b) (mkRay2 (mkPoint2 0 0) v) ->
  match bb2_intersect_ray (grown2 (XB2 c) (XB2 b)) (XR2 (mkRay2 (mkPoint2 0 0) v)) with
  | None => forall t : R, 0 <= t -> bb2_overlaps (moved2 (XB2 b) (XV2 v) (Fin t)) (XB2 c) = false
  | Some (s, e) => exists s' e' : R, s = Fin s' /\ e = Fin e' /\ 0 <= s' <= e' /\
      forall t : R, 0 <= t -> (bb2_overlaps (moved2 (XB2 b) (XV2 v) (Fin t)) (XB2 c) = true <-> s' <= t <= e')
  end.
Proof.
  intros b c v Ob Oc Hv Off. destruct (moved2_exact b c v 0 Ob Oc) as (_ & Eg & Og). pose proof (C16_ray_intersection_2d_pf (Rgrown2 c b) (mkRay2 (mkPoint2 0 0) v) Og Hv Off) as K. rewrite <- Eg in K.
  destruct (bb2_intersect_ray _ _) as [[s e]|].
  - destruct K as (s' & e' & E1 & E2 & P & K). exists s', e'. repeat (split; [assumption|]). intros t Ht. rewrite (proj1 (moved2_exact b c v t Ob Oc)). now apply K.
  - intros t Ht. rewrite (proj1 (moved2_exact b c v t Ob Oc)). now apply K.
Qed.
Lemma C111_time_of_impact_exact_3d_pf : forall (b c : BoundingBox3 R) (v : Vector3 R), Rordered3 b -> Rordered3 c -> v <> Rzero3 -> off_faces3 (Rgrown3 c b) (mkRay3 (mkPoint3 0 0 0) v) ->
  match bb3_intersect_ray (grown3 (XB3 c) (XB3 b)) (XR3 (mkRay3 (mkPoint3 0 0 0) v)) with
  | None => forall t : R, 0 <= t -> bb3_overlaps (moved3 (XB3 b) (XV3 v) (Fin t)) (XB3 c) = false
  | Some (s, e) => exists s' e' : R, s = Fin s' /\ e = Fin e' /\ 0 <= s' <= e' /\
      forall t : R, 0 <= t -> (bb3_overlaps (moved3 (XB3 b) (XV3 v) (Fin t)) (XB3 c) = true <-> s' <= t <= e')
  end.
Proof.
  intros b c v Ob Oc Hv Off. destruct (moved3_exact b c v 0 Ob Oc) as (_ & Eg & Og). pose proof (C16_ray_intersection_3d_pf (Rgrown3 c b) (mkRay3 (mkPoint3 0 0 0) v) Og Hv Off) as K. rewrite <- Eg in K.
  destruct (bb3_intersect_ray _ _) as [[s e]|].
  - destruct K as (s' & e' & E1 & E2 & P & K). exists s', e'. repeat (split; [assumption|]). intros t Ht. rewrite (proj1 (moved3_exact b c v t Ob Oc)). now apply K.
  - intros t Ht. rewrite (proj1 (moved3_exact b c v t Ob Oc)). now apply K.
Qed.
