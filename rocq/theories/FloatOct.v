(** Proofs: dividing a box at a point, quadtrees and octrees (C107). *)
From Coq Require Import Bool NArith ZArith Reals List Lra Lia.
From Flocq Require Import Core.Zaux Core.Raux.
From Verif Require Import Scalar Types Vector2 Vector3 Point2 Point3 Ray BoundingBox2 BoundingBox3 Float
  XReal OrdLaws Arith SpecOrder SpecFloat SpecSame SpecReal SpecBox SpecClip SpecBvh SpecKd SpecHull SpecOct OrderProofs OrderBox FloatX XArith FloatLaws SlabBase FloatRay FloatSym FloatClip FloatAxis ExVals ErrBase FloatGeom ExactBox FloatKd FloatNear FloatHull.
Import ListNotations.
Local Open Scope R_scope.
Definition NEWBOX2 (l h : Dimension2 -> R) : BoundingBox2 R := mkBB2 (mkPoint2 (l D2X) (l D2Y)) (mkPoint2 (h D2X) (h D2Y)).
Definition NEWBOX3 (l h : Dimension3 -> R) : BoundingBox3 R := mkBB3 (mkPoint3 (l D3X) (l D3Y) (l D3Z)) (mkPoint3 (h D3X) (h D3Y) (h D3Z)).
Ltac choose_tac2 := match goal with H : _ |- _ => destruct (H D2X) as [s Hs], (H D2Y) as [t Ht]; exists (fun d => match d with D2X => s | D2Y => t end); intros []; assumption end.
Ltac choose_tac3 := match goal with H : _ |- _ => destruct (H D3X) as [s Hs], (H D3Y) as [t Ht], (H D3Z) as [w Hw]; exists (fun d => match d with D3X => s | D3Y => t | D3Z => w end); intros []; assumption end.
Ltac box_eq2 K f := pose proof (K D2X) as [X1 X2]; pose proof (K D2Y) as [Y1 Y2]; destruct (bb2_new _ _) as [[] []]; cbn in *; subst; destruct (f D2X), (f D2Y); reflexivity.
Ltac box_eq3 K f := pose proof (K D3X) as [X1 X2]; pose proof (K D3Y) as [Y1 Y2]; pose proof (K D3Z) as [Z1 Z2]; destruct (bb3_new _ _) as [[] []]; cbn in *; subst; destruct (f D3X), (f D3Y), (f D3Z); reflexivity.
Section A.
Context {A : arith}.
Implicit Types lo hi m x y : num A.
Let L := num_OrdLaws A.
(* the two faces of a sub-box along one axis *)
Lemma new_face lo m hi (s : bool) : Le lo m -> Le m hi -> tx (s_min (pk s lo hi) m) = tx (if s then m else lo) /\ tx (s_max (pk s lo hi) m) = tx (if s then hi else m).
Proof. intros H1 H2. apply Le_tx in H1, H2. rewrite tx_smin, tx_smax. destruct s; cbn [pk]; rewrite ?(xmin_l _ _ H1), ?(xmin_r _ _ H2), ?(xmax_r _ _ H1), ?(xmax_l _ _ H2); easy. Qed.
Lemma near_tx lo hi lo' hi' o (d : num A) : Finite o -> Finite d -> tx lo = tx lo' -> tx hi = tx hi' -> tx (near lo hi o d) = tx (near lo' hi' o d) /\ tx (far lo hi o d) = tx (far lo' hi' o d).
Proof. intros Fo Fd E1 E2. destruct (quo_dir o d Fo Fd) as (F & up & E & _). unfold near, far. rewrite !tx_smin, !tx_smax, !E, E1, E2. easy. Qed.
Lemma Le_txl x x' y : tx x = tx x' -> (Le x y <-> Le x' y).
Proof. rewrite !Le_tx. now intros ->. Qed.
Lemma Le_txr x x' y : tx x = tx x' -> (Le y x <-> Le y x').
Proof. rewrite !Le_tx. now intros ->. Qed.
Definition cc2 (b : BoundingBox2 (num A)) (f : Dimension2 -> bool) := cpt2 b (f D2X) (f D2Y).
Definition cc3 (b : BoundingBox3 (num A)) (f : Dimension3 -> bool) := cpt3 b (f D3X) (f D3Y) (f D3Z).
Definition idx2 (f : Dimension2 -> bool) : N := ((if f D2X then 1 else 0) + (if f D2Y then 2 else 0))%N.
Definition idx3 (f : Dimension3 -> bool) : N := ((if f D3X then 1 else 0) + (if f D3Y then 2 else 0) + (if f D3Z then 4 else 0))%N.
Lemma corners3_all prof (bx : BoundingBox3 (num A)) : corners3 prof bx = [cpt3 bx false false false; cpt3 bx true false false; cpt3 bx false true false; cpt3 bx true true false; cpt3 bx false false true; cpt3 bx true false true; cpt3 bx false true true; cpt3 bx true true true].
Proof. unfold corners3, bb3_corner, debug_assert. destruct prof as [[] []]; reflexivity. Qed.
Lemma corners2_cc prof b c : In c (corners2 prof b) -> exists f, c = cc2 b f.
Proof. rewrite corners2_all. unfold cc2. intros I. assert (K : exists s t, c = cpt2 b s t) by (repeat (destruct I as [<-|I]; [now eexists; eexists|]); destruct I). destruct K as (s & t & ->). now exists (fun d => match d with D2X => s | D2Y => t end). Qed.
Lemma corners3_cc prof b c : In c (corners3 prof b) -> exists f, c = cc3 b f.
Proof. rewrite corners3_all. unfold cc3. intros I. assert (K : exists s t w, c = cpt3 b s t w) by (repeat (destruct I as [<-|I]; [now eexists; eexists; eexists|]); destruct I). destruct K as (s & t & w & ->). now exists (fun d => match d with D3X => s | D3Y => t | D3Z => w end). Qed.
Lemma cc2_corners prof b f : In (cc2 b f) (corners2 prof b). Proof. apply corners_in2. Qed.
Lemma cc3_corners prof b f : In (cc3 b f) (corners3 prof b). Proof. apply corners_in3. Qed.
Lemma corner_cc2 prof b f : bb2_corner prof b (idx2 f) = Ret (cc2 b f). Proof. apply corner_cpt2. Qed.
Lemma corner_cc3 prof b f : bb3_corner prof b (idx3 f) = Ret (cc3 b f). Proof. apply corner_cpt3. Qed.
Lemma idx2_all i : (i < 4)%N -> exists f, i = idx2 f.
Proof. intros H. exists (fun d => match d with D2X => N.testbit i 0 | D2Y => N.testbit i 1 end). assert (K : (i = 0 \/ i = 1 \/ i = 2 \/ i = 3)%N) by lia. destruct K as [->|[->|[->| ->]]]; reflexivity. Qed.
Lemma idx3_all i : (i < 8)%N -> exists f, i = idx3 f.
Proof. intros H. exists (fun d => match d with D3X => N.testbit i 0 | D3Y => N.testbit i 1 | D3Z => N.testbit i 2 end). assert (K : (i = 0 \/ i = 1 \/ i = 2 \/ i = 3 \/ i = 4 \/ i = 5 \/ i = 6 \/ i = 7)%N) by lia. destruct K as [->|[->|[->|[->|[->|[->|[->| ->]]]]]]]; reflexivity. Qed.
Lemma idx2_neq f g : idx2 f <> idx2 g -> exists d, f d <> g d.
Proof. unfold idx2. intros H. destruct (bool_dec (f D2X) (g D2X)) as [E1|N]; [|now exists D2X]. destruct (bool_dec (f D2Y) (g D2Y)) as [E2|N]; [|now exists D2Y]. elim H. now rewrite E1, E2. Qed.
Lemma idx3_neq f g : idx3 f <> idx3 g -> exists d, f d <> g d.
Proof. unfold idx3. intros H. destruct (bool_dec (f D3X) (g D3X)) as [E1|N]; [|now exists D3X]. destruct (bool_dec (f D3Y) (g D3Y)) as [E2|N]; [|now exists D3Y]. destruct (bool_dec (f D3Z) (g D3Z)) as [E3|N]; [|now exists D3Z]. elim H. now rewrite E1, E2, E3. Qed.
Lemma idx2_opp f : (3 - idx2 f)%N = idx2 (fun d => negb (f d)). Proof. unfold idx2. destruct (f D2X), (f D2Y); reflexivity. Qed.
Lemma idx3_opp f : (7 - idx3 f)%N = idx3 (fun d => negb (f d)). Proof. unfold idx3. destruct (f D3X), (f D3Y), (f D3Z); reflexivity. Qed.
Lemma opp_face lo m hi (s : bool) : Le lo m -> Le m hi -> forall x x' y y', tx x = tx (if s then m else lo) -> tx x' = tx (if negb s then m else lo) -> tx y = tx (if s then hi else m) -> tx y' = tx (if negb s then hi else m) ->
  tx (s_min (s_min x x') (s_max y y')) = tx lo /\ tx (s_max (s_min x x') (s_max y y')) = tx hi.
Proof.
  intros H1 H2 x x' y y' E1 E2 E3 E4. apply Le_tx in H1, H2. pose proof (xle_trans _ _ _ H1 H2) as H3. rewrite ?tx_smin, ?tx_smax, ?tx_smin, ?tx_smax, E1, E2, E3, E4.
  destruct s; cbn [negb]; rewrite ?(xmin_l _ _ H1), ?(xmin_r _ _ H1), ?(xmax_l _ _ H2), ?(xmax_r _ _ H2), ?(xmin_l _ _ H3), ?(xmax_r _ _ H3); easy.
Qed.
Lemma ext_shrink lo hi x y : Finite lo -> Finite hi -> Finite (ssub hi lo) -> Le lo x -> Le x y -> Le y hi -> Finite x /\ Finite y /\ Finite (ssub y x).
Proof.
  intros F1 F2 F3 H1 H2 H3. assert (Fx : Finite x) by (apply (fin_between lo hi); [assumption | assumption | left; split; [assumption | exact (Le_trans L _ _ _ H2 H3)]]).
  assert (Fy : Finite y) by (apply (fin_between lo hi); [assumption | assumption | left; split; [exact (Le_trans L _ _ _ H1 H2) | assumption]]). split; [exact Fx|]. split; [exact Fy|].
  apply (fin_between (szero : num A) (ssub hi lo)); [apply Finite_tx; rewrite tx_0; now eexists | exact F3|]. left. apply Finite_tx in F1, F2, Fx, Fy. destruct F1 as [r1 E1], F2 as [r2 E2], Fx as [r3 E3], Fy as [r4 E4].
  rewrite !Le_tx, !tx_sub, tx_0, ?E1, ?E2, ?E3, ?E4 in *. rewrite !xle_fin in *. split; [rewrite <- (xr_0 (A := A))|]; apply xr_mono; cbn [xsub xadd xneg]; apply xle_fin; lra.
Qed.
End A.
Section C2.
Context {A : arith}.
Let L := num_OrdLaws A.
Implicit Types (b : BoundingBox2 (num A)) (p m : Point2 (num A)) (f g : Dimension2 -> bool).
Definition lo2 b m f d : num A := if f d then coord2 m d else coord2 (bb2_min b) d.
Definition hi2 b m f d : num A := if f d then coord2 (bb2_max b) d else coord2 m d.
Lemma child2 b m f : In2 m b -> forall d, tx (coord2 (bb2_min (bb2_new (cc2 b f) m)) d) = tx (lo2 b m f d) /\ tx (coord2 (bb2_max (bb2_new (cc2 b f) m)) d) = tx (hi2 b m f d).
Proof. intros [I1 I2] d. pose proof (new_face (coord2 (bb2_min b) d) (coord2 m d) (coord2 (bb2_max b) d) (f d) (I1 d) (I2 d)) as K. destruct d; exact K. Qed.
Lemma child2_in b m f p : In2 m b -> (In2 p (bb2_new (cc2 b f) m) <-> forall d, Le (lo2 b m f d) (coord2 p d) /\ Le (coord2 p d) (hi2 b m f d)).
Proof.
  intros I. unfold In2. split.
  - intros [H1 H2] d. destruct (child2 b m f I d) as [E1 E2]. split; [apply (Le_txl _ _ _ E1), H1 | apply (Le_txr _ _ _ E2), H2].
  - intros H. split; intros d; destruct (child2 b m f I d) as [E1 E2]; [apply (Le_txl _ _ _ E1), H | apply (Le_txr _ _ _ E2), H].
Qed.
Lemma child2_ordered b m f : In2 m b -> Ordered2 (bb2_new (cc2 b f) m).
Proof.
  intros I d. destruct (child2 b m f I d) as [E1 E2]. apply (Le_txl _ _ _ E1). apply (Le_txr _ _ _ E2). destruct I as [I1 I2]. unfold lo2, hi2. destruct (f d); [apply I2 | apply I1].
Qed.
Lemma octant2_idx m p : octant2 m p = idx2 (fun d => sle (coord2 m d) (coord2 p d)). Proof. reflexivity. Qed.
Lemma NoNaN2_in b p : In2 p b -> NoNaN2 p. Proof. intros [H _] d. exact (proj2 (Le_nan L _ _ (H d))). Qed.
Lemma octant2_in b m p : In2 m b -> In2 p b -> In2 p (bb2_new (cc2 b (fun d => sle (coord2 m d) (coord2 p d))) m).
Proof.
  intros I J. apply child2_in; [exact I|]. intros d. unfold lo2, hi2. destruct (sle (coord2 m d) (coord2 p d)) eqn:E; [split; [exact E | apply J]|]. split; [apply J|].
  destruct (Le_total L _ _ (NoNaN2_in b m I d) (NoNaN2_in b p J d)) as [K|K]; [unfold Le in K; congruence | exact K].
Qed.
(* the children of the center of a box with finite extents are such boxes again *)
Definition Fine2 b : Prop := Ordered2 b /\ BFinite2 b /\ forall d, Finite (bb2_extent b d).
Lemma fine2_center b : Fine2 b -> In2 (bb2_center b) b.
Proof. intros (O & B & F). apply bb2_is_inside_iff. now apply C13_center_inside_2d_pf. Qed.
Lemma fine2_child b m f : Fine2 b -> In2 m b -> Fine2 (bb2_new (cc2 b f) m) /\ Incl2 (bb2_new (cc2 b f) m) b.
Proof.
  intros (O & [B1 B2] & F) I. pose proof (child2_ordered b m f I) as O'.
  assert (K : forall d, Le (coord2 (bb2_min b) d) (coord2 (bb2_min (bb2_new (cc2 b f) m)) d) /\ Le (coord2 (bb2_max (bb2_new (cc2 b f) m)) d) (coord2 (bb2_max b) d)).
  { intros d. destruct (child2 b m f I d) as [E1 E2]. rewrite (Le_txr _ _ _ E1), (Le_txl _ _ _ E2). unfold lo2, hi2. pose proof (Le_nan L _ _ (O d)) as [N1 N2]. destruct I as [I1 I2]. destruct (f d); split; first [apply I1 | apply I2 | now apply (Le_refl L)]. }
  assert (K' : forall d, _) by (intros d; assert (Fd : Finite (ssub (coord2 (bb2_max b) d) (coord2 (bb2_min b) d))) by (specialize (F d); destruct d; exact F); exact (ext_shrink _ _ _ _ (B1 d) (B2 d) Fd (proj1 (K d)) (O' d) (proj2 (K d)))).
  split.
  - split; [exact O'|]. split; [split; intros d; apply (K' d)|]. intros d. destruct (K' d) as (_ & _ & Q). destruct d; exact Q.
  - apply (Incl2_iff L); [exact O'|]. split; intros d; apply (K d).
Qed.
Lemma locate2_ok prof n : forall b p, Fine2 b -> In2 p b -> Fine2 (locate2 prof n b p) /\ In2 p (locate2 prof n b p) /\ Incl2 (locate2 prof n b p) b.
Proof.
  induction n as [|n IH]; intros b p W I; cbn [locate2].
  - split; [exact W|]. split; [exact I|]. intros q Q. exact Q.
  - rewrite octant2_idx, corner_cc2. pose proof (fine2_center b W) as C. destruct (fine2_child b _ (fun d => sle (coord2 (bb2_center b) d) (coord2 p d)) W C) as [W' X]. pose proof (octant2_in b _ p C I) as I'. destruct (IH _ p W' I') as (H1 & H2 & H3).
    split; [exact H1|]. split; [exact H2|]. intros q Q. apply X, H3, Q.
Qed.
Lemma choose2 (P : Dimension2 -> bool -> Prop) : (forall d, exists s, P d s) -> exists f, forall d, P d (f d).
Proof. intros H. choose_tac2. Qed.
End C2.
Section C3.
Context {A : arith}.
Let L := num_OrdLaws A.
Implicit Types (b : BoundingBox3 (num A)) (p m : Point3 (num A)) (f g : Dimension3 -> bool).
Definition lo3 b m f d : num A := if f d then coord3 m d else coord3 (bb3_min b) d.
Definition hi3 b m f d : num A := if f d then coord3 (bb3_max b) d else coord3 m d.
Lemma child3 b m f : In3 m b -> forall d, tx (coord3 (bb3_min (bb3_new (cc3 b f) m)) d) = tx (lo3 b m f d) /\ tx (coord3 (bb3_max (bb3_new (cc3 b f) m)) d) = tx (hi3 b m f d).
Proof. intros [I1 I2] d. pose proof (new_face (coord3 (bb3_min b) d) (coord3 m d) (coord3 (bb3_max b) d) (f d) (I1 d) (I2 d)) as K. destruct d; exact K. Qed.
Lemma child3_in b m f p : In3 m b -> (In3 p (bb3_new (cc3 b f) m) <-> forall d, Le (lo3 b m f d) (coord3 p d) /\ Le (coord3 p d) (hi3 b m f d)).
Proof.
  intros I. unfold In3. split.
  - intros [H1 H2] d. destruct (child3 b m f I d) as [E1 E2]. split; [apply (Le_txl _ _ _ E1), H1 | apply (Le_txr _ _ _ E2), H2].
  - intros H. split; intros d; destruct (child3 b m f I d) as [E1 E2]; [apply (Le_txl _ _ _ E1), H | apply (Le_txr _ _ _ E2), H].
Qed.
Lemma child3_ordered b m f : In3 m b -> Ordered3 (bb3_new (cc3 b f) m).
Proof.
  intros I d. destruct (child3 b m f I d) as [E1 E2]. apply (Le_txl _ _ _ E1). apply (Le_txr _ _ _ E2). destruct I as [I1 I2]. unfold lo3, hi3. destruct (f d); [apply I2 | apply I1].
Qed.
Lemma octant3_idx m p : octant3 m p = idx3 (fun d => sle (coord3 m d) (coord3 p d)). Proof. reflexivity. Qed.
Lemma NoNaN3_in b p : In3 p b -> NoNaN3 p. Proof. intros [H _] d. exact (proj2 (Le_nan L _ _ (H d))). Qed.
Lemma octant3_in b m p : In3 m b -> In3 p b -> In3 p (bb3_new (cc3 b (fun d => sle (coord3 m d) (coord3 p d))) m).
Proof.
  intros I J. apply child3_in; [exact I|]. intros d. unfold lo3, hi3. destruct (sle (coord3 m d) (coord3 p d)) eqn:E; [split; [exact E | apply J]|]. split; [apply J|].
  destruct (Le_total L _ _ (NoNaN3_in b m I d) (NoNaN3_in b p J d)) as [K|K]; [unfold Le in K; congruence | exact K].
Qed.
(* the children of the center of a box with finite extents are such boxes again *)
Definition Fine3 b : Prop := Ordered3 b /\ BFinite3 b /\ forall d, Finite (bb3_extent b d).
Lemma fine3_center b : Fine3 b -> In3 (bb3_center b) b.
Proof. intros (O & B & F). apply bb3_is_inside_iff. now apply C13_center_inside_3d_pf. Qed.
Lemma fine3_child b m f : Fine3 b -> In3 m b -> Fine3 (bb3_new (cc3 b f) m) /\ Incl3 (bb3_new (cc3 b f) m) b.
Proof.
  intros (O & [B1 B2] & F) I. pose proof (child3_ordered b m f I) as O'.
  assert (K : forall d, Le (coord3 (bb3_min b) d) (coord3 (bb3_min (bb3_new (cc3 b f) m)) d) /\ Le (coord3 (bb3_max (bb3_new (cc3 b f) m)) d) (coord3 (bb3_max b) d)).
  { intros d. destruct (child3 b m f I d) as [E1 E2]. rewrite (Le_txr _ _ _ E1), (Le_txl _ _ _ E2). unfold lo3, hi3. pose proof (Le_nan L _ _ (O d)) as [N1 N2]. destruct I as [I1 I2]. destruct (f d); split; first [apply I1 | apply I2 | now apply (Le_refl L)]. }
  assert (K' : forall d, _) by (intros d; assert (Fd : Finite (ssub (coord3 (bb3_max b) d) (coord3 (bb3_min b) d))) by (specialize (F d); destruct d; exact F); exact (ext_shrink _ _ _ _ (B1 d) (B2 d) Fd (proj1 (K d)) (O' d) (proj2 (K d)))).
  split.
  - split; [exact O'|]. split; [split; intros d; apply (K' d)|]. intros d. destruct (K' d) as (_ & _ & Q). destruct d; exact Q.
  - apply (Incl3_iff L); [exact O'|]. split; intros d; apply (K d).
Qed.
Lemma locate3_ok prof n : forall b p, Fine3 b -> In3 p b -> Fine3 (locate3 prof n b p) /\ In3 p (locate3 prof n b p) /\ Incl3 (locate3 prof n b p) b.
Proof.
  induction n as [|n IH]; intros b p W I; cbn [locate3].
  - split; [exact W|]. split; [exact I|]. intros q Q. exact Q.
  - rewrite octant3_idx, corner_cc3. pose proof (fine3_center b W) as C. destruct (fine3_child b _ (fun d => sle (coord3 (bb3_center b) d) (coord3 p d)) W C) as [W' X]. pose proof (octant3_in b _ p C I) as I'. destruct (IH _ p W' I') as (H1 & H2 & H3).
    split; [exact H1|]. split; [exact H2|]. intros q Q. apply X, H3, Q.
Qed.
Lemma choose3 (P : Dimension3 -> bool -> Prop) : (forall d, exists s, P d s) -> exists f, forall d, P d (f d).
Proof. intros H. choose_tac3. Qed.
End C3.
Lemma C107_cover_2d_pf : forall (A : arith) (prof : profile) (b : BoundingBox2 (num A)) (m p : Point2 (num A)), bb2_is_inside b m = true ->
  (bb2_is_inside b p = true <-> exists c, In c (children2 prof b m) /\ bb2_is_inside c p = true) /\
  (bb2_is_inside b p = true -> exists c, bb2_corner prof b (octant2 m p) = Ret c /\ bb2_is_inside (bb2_new c m) p = true).
Proof.
  intros A prof b m p. rewrite !bb2_is_inside_iff. intros I. split; [split|].
  - intros J. exists (bb2_new (cc2 b (fun d => sle (coord2 m d) (coord2 p d))) m). split; [unfold children2; exact (in_map (fun c => bb2_new c m) _ _ (cc2_corners _ _ _))|]. apply bb2_is_inside_iff. now apply octant2_in.
  - intros (c & Q & J). apply bb2_is_inside_iff in J. unfold children2 in Q. apply in_map_iff in Q. destruct Q as (x & <- & Q). destruct (corners2_cc _ _ _ Q) as [f ->]. pose proof (proj1 (child2_in b m f p I) J) as K. pose proof (num_OrdLaws A) as L.
    destruct I as [I1 I2]. unfold lo2, hi2 in K. split; intros d; specialize (K d); destruct (f d), K as [K1 K2]; first [assumption | exact (Le_trans L _ _ _ (I1 d) K1) | exact (Le_trans L _ _ _ K2 (I2 d))].
  - intros J. rewrite octant2_idx, corner_cc2. eexists. split; [reflexivity|]. apply bb2_is_inside_iff. now apply octant2_in.
Qed.
Lemma C107_cover_3d_pf : forall (A : arith) (prof : profile) (b : BoundingBox3 (num A)) (m p : Point3 (num A)), bb3_is_inside b m = true ->
  (bb3_is_inside b p = true <-> exists c, In c (children3 prof b m) /\ bb3_is_inside c p = true) /\
  (bb3_is_inside b p = true -> exists c, bb3_corner prof b (octant3 m p) = Ret c /\ bb3_is_inside (bb3_new c m) p = true).
Proof.
  intros A prof b m p. rewrite !bb3_is_inside_iff. intros I. split; [split|].
  - intros J. exists (bb3_new (cc3 b (fun d => sle (coord3 m d) (coord3 p d))) m). split; [unfold children3; exact (in_map (fun c => bb3_new c m) _ _ (cc3_corners _ _ _))|]. apply bb3_is_inside_iff. now apply octant3_in.
  - intros (c & Q & J). apply bb3_is_inside_iff in J. unfold children3 in Q. apply in_map_iff in Q. destruct Q as (x & <- & Q). destruct (corners3_cc _ _ _ Q) as [f ->]. pose proof (proj1 (child3_in b m f p I) J) as K. pose proof (num_OrdLaws A) as L.
    destruct I as [I1 I2]. unfold lo3, hi3 in K. split; intros d; specialize (K d); destruct (f d), K as [K1 K2]; first [assumption | exact (Le_trans L _ _ _ (I1 d) K1) | exact (Le_trans L _ _ _ K2 (I2 d))].
  - intros J. rewrite octant3_idx, corner_cc3. eexists. split; [reflexivity|]. apply bb3_is_inside_iff. now apply octant3_in.
Qed.
Lemma C107_share_only_cuts_2d_pf : forall (A : arith) (prof : profile) (b : BoundingBox2 (num A)) (m p : Point2 (num A)) (i j : N) (ci cj : Point2 (num A)), bb2_is_inside b m = true -> (i < 2 ^ 2)%N -> (j < 2 ^ 2)%N -> i <> j ->
  bb2_corner prof b i = Ret ci -> bb2_corner prof b j = Ret cj -> bb2_is_inside (bb2_new ci m) p = true -> bb2_is_inside (bb2_new cj m) p = true -> exists d, Eqs (coord2 p d) (coord2 m d).
Proof.
  intros A prof b m p i j ci cj. rewrite !bb2_is_inside_iff. intros I Bi Bj N. destruct (idx2_all i Bi) as [f ->]. destruct (idx2_all j Bj) as [g ->]. rewrite !corner_cc2. intros [= <-] [= <-] H H'. destruct (idx2_neq f g N) as [d D]. exists d.
  pose proof (proj1 (child2_in b m f p I) H d) as [K1 K2]. pose proof (proj1 (child2_in b m g p I) H' d) as [K3 K4]. unfold lo2, hi2 in *. apply (Eqs_iff (num_OrdLaws A)). destruct (f d), (g d); try congruence; now split.
Qed.
Lemma C107_share_only_cuts_3d_pf : forall (A : arith) (prof : profile) (b : BoundingBox3 (num A)) (m p : Point3 (num A)) (i j : N) (ci cj : Point3 (num A)), bb3_is_inside b m = true -> (i < 2 ^ 3)%N -> (j < 2 ^ 3)%N -> i <> j ->
  bb3_corner prof b i = Ret ci -> bb3_corner prof b j = Ret cj -> bb3_is_inside (bb3_new ci m) p = true -> bb3_is_inside (bb3_new cj m) p = true -> exists d, Eqs (coord3 p d) (coord3 m d).
Proof.
  intros A prof b m p i j ci cj. rewrite !bb3_is_inside_iff. intros I Bi Bj N. destruct (idx3_all i Bi) as [f ->]. destruct (idx3_all j Bj) as [g ->]. rewrite !corner_cc3. intros [= <-] [= <-] H H'. destruct (idx3_neq f g N) as [d D]. exists d.
  pose proof (proj1 (child3_in b m f p I) H d) as [K1 K2]. pose proof (proj1 (child3_in b m g p I) H' d) as [K3 K4]. unfold lo3, hi3 in *. apply (Eqs_iff (num_OrdLaws A)). destruct (f d), (g d); try congruence; now split.
Qed.
Lemma C107_opposite_union_2d_pf : forall (A : arith) (prof : profile) (b : BoundingBox2 (num A)) (m : Point2 (num A)) (i : N) (c c' : Point2 (num A)), bb2_is_inside b m = true -> (i < 2 ^ 2)%N ->
  bb2_corner prof b i = Ret c -> bb2_corner prof b (2 ^ 2 - 1 - i) = Ret c' -> BEq2 (bb2_union (bb2_new c m) (bb2_new c' m)) b.
Proof.
  intros A prof b m i c c'. rewrite bb2_is_inside_iff. intros I Bi. destruct (idx2_all i Bi) as [f ->]. replace (2 ^ 2 - 1 - idx2 f)%N with (idx2 (fun d => negb (f d))) by (rewrite <- idx2_opp; reflexivity). rewrite !corner_cc2. intros [= <-] [= <-].
  pose proof (num_OrdLaws A) as L. assert (K : forall d, tx (coord2 (bb2_min (bb2_union (bb2_new (cc2 b f) m) (bb2_new (cc2 b (fun d => negb (f d))) m))) d) = tx (coord2 (bb2_min b) d) /\ tx (coord2 (bb2_max (bb2_union (bb2_new (cc2 b f) m) (bb2_new (cc2 b (fun d => negb (f d))) m))) d) = tx (coord2 (bb2_max b) d)).
  { intros d. destruct (child2 b m f I d) as [E1 E2]. destruct (child2 b m (fun d => negb (f d)) I d) as [E3 E4]. unfold lo2, hi2 in *. destruct I as [I1 I2]. pose proof (opp_face _ _ _ (f d) (I1 d) (I2 d) _ _ _ _ E1 E3 E2 E4) as K. destruct d; exact K. }
  destruct I as [I1 I2]. split; intros d; apply Eqs_tx; (split; [apply (K d)|]); (destruct (K d) as [-> _] || destruct (K d) as [_ ->]); apply NoNaN_tx; [exact (proj1 (Le_nan L _ _ (I1 d))) | exact (proj2 (Le_nan L _ _ (I2 d)))].
Qed.
Lemma C107_opposite_union_3d_pf : forall (A : arith) (prof : profile) (b : BoundingBox3 (num A)) (m : Point3 (num A)) (i : N) (c c' : Point3 (num A)), bb3_is_inside b m = true -> (i < 2 ^ 3)%N ->
  bb3_corner prof b i = Ret c -> bb3_corner prof b (2 ^ 3 - 1 - i) = Ret c' -> BEq3 (bb3_union (bb3_new c m) (bb3_new c' m)) b.
Proof.
  intros A prof b m i c c'. rewrite bb3_is_inside_iff. intros I Bi. destruct (idx3_all i Bi) as [f ->]. replace (2 ^ 3 - 1 - idx3 f)%N with (idx3 (fun d => negb (f d))) by (rewrite <- idx3_opp; reflexivity). rewrite !corner_cc3. intros [= <-] [= <-].
  pose proof (num_OrdLaws A) as L. assert (K : forall d, tx (coord3 (bb3_min (bb3_union (bb3_new (cc3 b f) m) (bb3_new (cc3 b (fun d => negb (f d))) m))) d) = tx (coord3 (bb3_min b) d) /\ tx (coord3 (bb3_max (bb3_union (bb3_new (cc3 b f) m) (bb3_new (cc3 b (fun d => negb (f d))) m))) d) = tx (coord3 (bb3_max b) d)).
  { intros d. destruct (child3 b m f I d) as [E1 E2]. destruct (child3 b m (fun d => negb (f d)) I d) as [E3 E4]. unfold lo3, hi3 in *. destruct I as [I1 I2]. pose proof (opp_face _ _ _ (f d) (I1 d) (I2 d) _ _ _ _ E1 E3 E2 E4) as K. destruct d; exact K. }
  destruct I as [I1 I2]. split; intros d; apply Eqs_tx; (split; [apply (K d)|]); (destruct (K d) as [-> _] || destruct (K d) as [_ ->]); apply NoNaN_tx; [exact (proj1 (Le_nan L _ _ (I1 d))) | exact (proj2 (Le_nan L _ _ (I2 d)))].
Qed.
Lemma C107_ray_2d_pf : forall (A : arith) (prof : profile) (b : BoundingBox2 (num A)) (m : Point2 (num A)) (r : Ray2 (num A)), bb2_is_inside b m = true -> Finite2 (r2_origin r) -> VFinite2 (r2_direction r) -> NotGrazing2 b r -> (forall d, OffPlane2 r d (coord2 m d)) ->
  forall t, HitAt2 b r t <-> exists c, In c (children2 prof b m) /\ HitAt2 c r t.
Proof.
  intros A prof b m r I F V G P t. apply bb2_is_inside_iff in I. pose proof (num_OrdLaws A) as L.
  assert (O : Ordered2 b) by (destruct I as [I1 I2]; intros d; exact (Le_trans L _ _ _ (I1 d) (I2 d))).
  assert (Gc : forall f, NotGrazing2 (bb2_new (cc2 b f) m) r).
  { intros f d Z. destruct (child2 b m f I d) as [E1 E2]. rewrite !Eqs_tx. unfold lo2, hi2 in *. rewrite E1, E2, <- !Eqs_tx. destruct (f d); (split; first [exact (P d Z) | apply (G d Z)]). }
  assert (Nc : forall f, _) by (intros f; exact (num2 (bb2_new (cc2 b f) m) r (child2_ordered b m f I) F V (Gc f))).
  destruct (NoNaN_dec t) as [Nt|Nt]; [|split; [intros H; elim Nt; exact (hit2_nan _ _ _ H) | intros (c & _ & H); elim Nt; exact (hit2_nan _ _ _ H)]].
  destruct (num2 b r O F V G) as [A1 A2].
  assert (S : forall d, _) by (intros d; destruct I as [I1 I2]; exact (slab_split (coord2 (bb2_min b) d) (coord2 m d) (coord2 (bb2_max b) d) _ _ (F d) (V d) (fun Z => proj1 (G d Z)) (P d) (fun Z => proj2 (G d Z)) (I1 d) (I2 d) (tx t) (eq_trans (eq_sym (tx_nan t)) Nt))).
  assert (H : forall f, HitAt2 (bb2_new (cc2 b f) m) r t <-> Le szero t /\ forall d, xle (tx (near (lo2 b m f d) (hi2 b m f d) (coord2 (r2_origin r) d) (vcoord2 (r2_direction r) d))) (tx t) = true /\ xle (tx t) (tx (far (lo2 b m f d) (hi2 b m f d) (coord2 (r2_origin r) d) (vcoord2 (r2_direction r) d))) = true).
  { intros f. rewrite hit2_iff by (try exact Nt; apply (Nc f)). unfold NR2, FR2. split; intros [Z H]; (split; [exact Z|]); intros d; specialize (H d); destruct (child2 b m f I d) as [E1 E2]; destruct (near_tx _ _ _ _ _ _ (F d) (V d) E1 E2) as [E3 E4]; rewrite ?E3, ?E4 in *; exact H. }
  rewrite hit2_iff by assumption. unfold NR2, FR2. split.
  - intros [Z K]. assert (Q : forall d, exists s : bool, xle (tx (near (if s then coord2 m d else coord2 (bb2_min b) d) (if s then coord2 (bb2_max b) d else coord2 m d) (coord2 (r2_origin r) d) (vcoord2 (r2_direction r) d))) (tx t) = true /\ xle (tx t) (tx (far (if s then coord2 m d else coord2 (bb2_min b) d) (if s then coord2 (bb2_max b) d else coord2 m d) (coord2 (r2_origin r) d) (vcoord2 (r2_direction r) d))) = true).
    { intros d. destruct (proj1 (S d) (K d)) as [K'|K']; [exists false | exists true]; exact K'. }
    destruct (choose2 _ Q) as [f Qf]. exists (bb2_new (cc2 b f) m). split; [unfold children2; exact (in_map (fun c => bb2_new c m) _ _ (cc2_corners _ _ _))|]. apply H. now split.
  - intros (c & Q & K). unfold children2 in Q. apply in_map_iff in Q. destruct Q as (x & <- & Q). destruct (corners2_cc _ _ _ Q) as [f ->]. apply H in K. destruct K as [Z K]. split; [exact Z|]. intros d. apply (S d). specialize (K d). unfold lo2, hi2 in K. destruct (f d); tauto.
Qed.
Lemma C107_ray_3d_pf : forall (A : arith) (prof : profile) (b : BoundingBox3 (num A)) (m : Point3 (num A)) (r : Ray3 (num A)), bb3_is_inside b m = true -> Finite3 (r3_origin r) -> VFinite3 (r3_direction r) -> NotGrazing3 b r -> (forall d, OffPlane3 r d (coord3 m d)) ->
  forall t, HitAt3 b r t <-> exists c, In c (children3 prof b m) /\ HitAt3 c r t.
Proof.
  intros A prof b m r I F V G P t. apply bb3_is_inside_iff in I. pose proof (num_OrdLaws A) as L.
  assert (O : Ordered3 b) by (destruct I as [I1 I2]; intros d; exact (Le_trans L _ _ _ (I1 d) (I2 d))).
  assert (Gc : forall f, NotGrazing3 (bb3_new (cc3 b f) m) r).
  { intros f d Z. destruct (child3 b m f I d) as [E1 E2]. rewrite !Eqs_tx. unfold lo3, hi3 in *. rewrite E1, E2, <- !Eqs_tx. destruct (f d); (split; first [exact (P d Z) | apply (G d Z)]). }
  assert (Nc : forall f, _) by (intros f; exact (num3 (bb3_new (cc3 b f) m) r (child3_ordered b m f I) F V (Gc f))).
  destruct (NoNaN_dec t) as [Nt|Nt]; [|split; [intros H; elim Nt; exact (hit3_nan _ _ _ H) | intros (c & _ & H); elim Nt; exact (hit3_nan _ _ _ H)]].
  destruct (num3 b r O F V G) as [A1 A2].
  assert (S : forall d, _) by (intros d; destruct I as [I1 I2]; exact (slab_split (coord3 (bb3_min b) d) (coord3 m d) (coord3 (bb3_max b) d) _ _ (F d) (V d) (fun Z => proj1 (G d Z)) (P d) (fun Z => proj2 (G d Z)) (I1 d) (I2 d) (tx t) (eq_trans (eq_sym (tx_nan t)) Nt))).
  assert (H : forall f, HitAt3 (bb3_new (cc3 b f) m) r t <-> Le szero t /\ forall d, xle (tx (near (lo3 b m f d) (hi3 b m f d) (coord3 (r3_origin r) d) (vcoord3 (r3_direction r) d))) (tx t) = true /\ xle (tx t) (tx (far (lo3 b m f d) (hi3 b m f d) (coord3 (r3_origin r) d) (vcoord3 (r3_direction r) d))) = true).
  { intros f. rewrite hit3_iff by (try exact Nt; apply (Nc f)). unfold NR3, FR3. split; intros [Z H]; (split; [exact Z|]); intros d; specialize (H d); destruct (child3 b m f I d) as [E1 E2]; destruct (near_tx _ _ _ _ _ _ (F d) (V d) E1 E2) as [E3 E4]; rewrite ?E3, ?E4 in *; exact H. }
  rewrite hit3_iff by assumption. unfold NR3, FR3. split.
  - intros [Z K]. assert (Q : forall d, exists s : bool, xle (tx (near (if s then coord3 m d else coord3 (bb3_min b) d) (if s then coord3 (bb3_max b) d else coord3 m d) (coord3 (r3_origin r) d) (vcoord3 (r3_direction r) d))) (tx t) = true /\ xle (tx t) (tx (far (if s then coord3 m d else coord3 (bb3_min b) d) (if s then coord3 (bb3_max b) d else coord3 m d) (coord3 (r3_origin r) d) (vcoord3 (r3_direction r) d))) = true).
    { intros d. destruct (proj1 (S d) (K d)) as [K'|K']; [exists false | exists true]; exact K'. }
    destruct (choose3 _ Q) as [f Qf]. exists (bb3_new (cc3 b f) m). split; [unfold children3; exact (in_map (fun c => bb3_new c m) _ _ (cc3_corners _ _ _))|]. apply H. now split.
  - intros (c & Q & K). unfold children3 in Q. apply in_map_iff in Q. destruct Q as (x & <- & Q). destruct (corners3_cc _ _ _ Q) as [f ->]. apply H in K. destruct K as [Z K]. split; [exact Z|]. intros d. apply (S d). specialize (K d). unfold lo3, hi3 in K. destruct (f d); tauto.
Qed.
Lemma C107_locate_2d_pf : forall (A : arith) (prof : profile) (n : nat) (b : BoundingBox2 (num A)) (p : Point2 (num A)), Ordered2 b -> BFinite2 b -> (forall d, Finite (bb2_extent b d)) -> bb2_is_inside b p = true ->
  let c := locate2 prof n b p in bb2_is_inside c p = true /\ Incl2 c b /\ Ordered2 c /\ BFinite2 c /\ (forall d, Finite (bb2_extent c d)) /\ bb2_is_inside c (bb2_center c) = true.
Proof.
  intros A prof n b p O B F I c. apply bb2_is_inside_iff in I. destruct (locate2_ok prof n b p (conj O (conj B F)) I) as (W & H1 & H2). fold c in W, H1, H2. pose proof (fine2_center c W) as C. destruct W as (W1 & W2 & W3). rewrite !bb2_is_inside_iff. repeat (split; [assumption|]). exact C.
Qed.
Lemma C107_locate_3d_pf : forall (A : arith) (prof : profile) (n : nat) (b : BoundingBox3 (num A)) (p : Point3 (num A)), Ordered3 b -> BFinite3 b -> (forall d, Finite (bb3_extent b d)) -> bb3_is_inside b p = true ->
  let c := locate3 prof n b p in bb3_is_inside c p = true /\ Incl3 c b /\ Ordered3 c /\ BFinite3 c /\ (forall d, Finite (bb3_extent c d)) /\ bb3_is_inside c (bb3_center c) = true.
Proof.
  intros A prof n b p O B F I c. apply bb3_is_inside_iff in I. destruct (locate3_ok prof n b p (conj O (conj B F)) I) as (W & H1 & H2). fold c in W, H1, H2. pose proof (fine3_center c W) as C. destruct W as (W1 & W2 & W3). rewrite !bb3_is_inside_iff. repeat (split; [assumption|]). exact C.
Qed.
Section X2.
Implicit Types (b : BoundingBox2 R) (m p : Point2 R).
Definition Rchild2 b m (f : Dimension2 -> bool) : BoundingBox2 R := NEWBOX2 (fun d => if f d then coord2 m d else coord2 (bb2_min b) d) (fun d => if f d then coord2 (bb2_max b) d else coord2 m d).
Lemma xchild2 b m f : bb2_is_inside (XB2 b : BoundingBox2 (num EXACT)) (XP2 m) = true -> bb2_new (cc2 (XB2 b : BoundingBox2 (num EXACT)) f) (XP2 m : Point2 (num EXACT)) = XB2 (Rchild2 b m f).
Proof.
  intros I. apply bb2_is_inside_iff in I. pose proof (child2 (XB2 b : BoundingBox2 (num EXACT)) (XP2 m : Point2 (num EXACT)) f I) as K. unfold Rchild2, NEWBOX2. unfold lo2, hi2 in K. box_eq2 K f.
Qed.
End X2.
Section X3.
Implicit Types (b : BoundingBox3 R) (m p : Point3 R).
Definition Rchild3 b m (f : Dimension3 -> bool) : BoundingBox3 R := NEWBOX3 (fun d => if f d then coord3 m d else coord3 (bb3_min b) d) (fun d => if f d then coord3 (bb3_max b) d else coord3 m d).
Lemma xchild3 b m f : bb3_is_inside (XB3 b : BoundingBox3 (num EXACT)) (XP3 m) = true -> bb3_new (cc3 (XB3 b : BoundingBox3 (num EXACT)) f) (XP3 m : Point3 (num EXACT)) = XB3 (Rchild3 b m f).
Proof.
  intros I. apply bb3_is_inside_iff in I. pose proof (child3 (XB3 b : BoundingBox3 (num EXACT)) (XP3 m : Point3 (num EXACT)) f I) as K. unfold Rchild3, NEWBOX3. unfold lo3, hi3 in K. box_eq3 K f.
Qed.
End X3.
Lemma C107_areas_add_2d_pf : forall (prof : profile) (b : BoundingBox2 R) (m : Point2 R), bb2_is_inside (XB2 b) (XP2 m) = true ->
  fold_right sadd szero (map bb2_area (children2 prof (XB2 b) (XP2 m))) = bb2_area (XB2 b).
Proof.
  intros prof b m I. unfold children2. rewrite (corners2_all (A := EXACT)). cbn [map fold_right].
  pose proof (fun s t => xchild2 b m (fun d => match d with D2X => s | D2Y => t end) I) as K. unfold cc2 in K. repeat match goal with |- context [@bb2_new ?S ?O (@cpt2 ?A ?x ?s ?t) ?y] => let H := fresh in assert (H : @bb2_new S O (@cpt2 A x s t) y = _) by exact (K s t); rewrite H; clear H end. clear K. destruct b as [[] []], m. cbn. f_equal. ring.
Qed.
Lemma C107_volumes_add_3d_pf : forall (prof : profile) (b : BoundingBox3 R) (m : Point3 R), bb3_is_inside (XB3 b) (XP3 m) = true ->
  fold_right sadd szero (map bb3_volume (children3 prof (XB3 b) (XP3 m))) = bb3_volume (XB3 b).
Proof.
  intros prof b m I. unfold children3. rewrite (corners3_all (A := EXACT)). cbn [map fold_right].
  pose proof (fun s t w => xchild3 b m (fun d => match d with D3X => s | D3Y => t | D3Z => w end) I) as K. unfold cc3 in K. repeat match goal with |- context [@bb3_new ?S ?O (@cpt3 ?A ?x ?s ?t ?w) ?y] => let H := fresh in assert (H : @bb3_new S O (@cpt3 A x s t w) y = _) by exact (K s t w); rewrite H; clear H end. clear K. destruct b as [[] []], m. cbn. f_equal. ring.
Qed.
Lemma C107_halving_2d_pf : forall (prof : profile) (n : nat) (b : BoundingBox2 R) (p : Point2 R) (d : Dimension2), Rordered2 b ->
  bb2_extent (locate2 prof n (XB2 b) (XP2 p)) d = Fin ((coord2 (bb2_max b) d - coord2 (bb2_min b) d) / 2 ^ n).
Proof.
  intros prof n b p d. revert b. induction n as [|n IH]; intros b O.
  - cbn [locate2 pow]. destruct b as [[] []], d; cbn; f_equal; field.
  - cbn [locate2]. rewrite (octant2_idx (A := EXACT)), (corner_cc2 (A := EXACT)). destruct (C13_center_exact_2d_pf b) as [Ec Ic]. specialize (Ic O). rewrite Ec in Ic |- *. rewrite xchild2 by exact Ic. rewrite IH.
    + f_equal. pose proof (pow_lt 2 n ltac:(lra)). unfold Rchild2, NEWBOX2. destruct b as [[] []], d; cbn; match goal with |- context [if ?c then _ else _] => destruct c end; field; lra.
    + unfold Rchild2, NEWBOX2, Rordered2 in *. destruct b as [[] []]; cbn in O |- *. repeat match goal with |- context [if ?c then _ else _] => destruct c end; lra.
Qed.
Lemma C107_halving_3d_pf : forall (prof : profile) (n : nat) (b : BoundingBox3 R) (p : Point3 R) (d : Dimension3), Rordered3 b ->
  bb3_extent (locate3 prof n (XB3 b) (XP3 p)) d = Fin ((coord3 (bb3_max b) d - coord3 (bb3_min b) d) / 2 ^ n).
Proof.
  intros prof n b p d. revert b. induction n as [|n IH]; intros b O.
  - cbn [locate3 pow]. destruct b as [[] []], d; cbn; f_equal; field.
  - cbn [locate3]. rewrite (octant3_idx (A := EXACT)), (corner_cc3 (A := EXACT)). destruct (C13_center_exact_3d_pf b) as [Ec Ic]. specialize (Ic O). rewrite Ec in Ic |- *. rewrite xchild3 by exact Ic. rewrite IH.
    + f_equal. pose proof (pow_lt 2 n ltac:(lra)). unfold Rchild3, NEWBOX3. destruct b as [[] []], d; cbn; match goal with |- context [if ?c then _ else _] => destruct c end; field; lra.
    + unfold Rchild3, NEWBOX3, Rordered3 in *. destruct b as [[] []]; cbn in O |- *. repeat match goal with |- context [if ?c then _ else _] => destruct c end; lra.
Qed.
