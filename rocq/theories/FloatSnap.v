(** Proofs: rounding the corners of a box outward to integers (C110). *)
From Coq Require Import Bool NArith ZArith Reals List Lra Lia.
From Flocq Require Import Core.Zaux Core.Raux Core.Generic_fmt Core.Round_NE.
From Verif Require Import Scalar Types Vector2 Vector3 Point2 Point3 Ray BoundingBox2 BoundingBox3 Float
  XReal OrdLaws Arith SpecOrder SpecFloat SpecErr SpecReal SpecSnap OrderProofs OrderBox FloatX XArith FloatLaws SlabBase FloatSign FloatSym FloatClip ExVals ErrBase FloatOct.
Local Open Scope R_scope.
Lemma real_of_fin {A : arith} (x : num A) r : tx x = Fin r -> Finite x /\ real_of x = r.
Proof. intros E. assert (F : Finite x) by (apply Finite_tx; eauto). split; [assumption|]. rewrite (Finite_real x F) in E. now injection E. Qed.
Section X.
Lemma xint_mono f x y : (forall a b, a <= b -> (f a <= f b)%Z) -> xle x y = true -> xle (xint f x) (xint f y) = true.
Proof. intros M. destruct x, y; cbn [xint]; try easy. rewrite !xle_fin. intros H. now apply IZR_le, M. Qed.
Lemma xfloor_le x : xnan x = false -> xle (xint Zfloor x) x = true.
Proof. destruct x; cbn [xint]; try easy. rewrite xle_fin. intros _. apply Zfloor_lb. Qed.
Lemma xceil_ge x : xnan x = false -> xle x (xint Zceil x) = true.
Proof. destruct x; cbn [xint]; try easy. rewrite xle_fin. intros _. apply Zceil_ub. Qed.
Lemma xint_nan f x : xnan (xint f x) = xnan x.
Proof. now destruct x. Qed.
Lemma xint_id f x : (forall n, f (IZR n) = n) -> forall g, xint f (xint g x) = xint g x.
Proof. intros H g. destruct x; cbn [xint]; try reflexivity. now rewrite H. Qed.
Lemma xint_between f x : (forall a, (Zfloor a <= f a <= Zceil a)%Z) -> xnan x = false -> xle (xint Zfloor x) (xint f x) = true /\ xle (xint f x) (xint Zceil x) = true.
Proof. intros H. destruct x; cbn [xint]; try easy. rewrite !xle_fin. intros _. destruct (H r). split; now apply IZR_le. Qed.
Lemma trunc_between a : (Zfloor a <= Ztrunc a <= Zceil a)%Z.
Proof.
  assert (K : (Zfloor a <= Zceil a)%Z) by (apply le_IZR, Rle_trans with a; [apply Zfloor_lb | apply Zceil_ub]).
  destruct (Rle_or_lt 0 a); [rewrite Ztrunc_floor | rewrite Ztrunc_ceil]; lra || lia || (try lra); try lia.
Qed.
Lemma near_between c a : (Zfloor a <= Znearest c a <= Zceil a)%Z.
Proof.
  assert (K : (Zfloor a <= Zceil a)%Z) by (apply le_IZR, Rle_trans with a; [apply Zfloor_lb | apply Zceil_ub]).
  destruct (Znearest_DN_or_UP c a) as [-> | ->]; lia.
Qed.
Lemma floor_between a : (Zfloor a <= Zfloor a <= Zceil a)%Z.
Proof. pose proof (trunc_between a). lia. Qed.
Lemma ceil_between a : (Zfloor a <= Zceil a <= Zceil a)%Z.
Proof. pose proof (trunc_between a). lia. Qed.
End X.
Section A.
Context {A : arith}.
Implicit Types x y z : num A.
Lemma NoNaN_tx x : NoNaN x <-> xnan (tx x) = false.
Proof. unfold NoNaN. now rewrite tx_nan. Qed.
Lemma Integral_fix f x : (forall n, f (IZR n) = n) -> Integral x -> xint f (tx x) = tx x.
Proof.
  intros H [N I]. destruct (tx x) eqn:E; try reflexivity. assert (F : Finite x) by (apply Finite_tx; now exists r). destruct (I F) as [z Z]. rewrite (Finite_real x F) in E. injection E as <-. cbn [xint]. now rewrite Z, H.
Qed.
Lemma xint_Integral f x y : NoNaN x -> tx y = xint f (tx x) -> Integral y.
Proof.
  intros N E. split; [apply NoNaN_tx; rewrite E, xint_nan; now apply NoNaN_tx|]. intros F. rewrite (Finite_real y F) in E. destruct (tx x); cbn in E; try discriminate. injection E as ->. eauto.
Qed.
Lemma Integral_tx x y : tx x = tx y -> Integral x -> Integral y.
Proof. intros E [N I]. destruct (real_of_eq _ _ E) as [F R]. split; [apply NoNaN_tx; rewrite <- E; now apply NoNaN_tx|]. intros Fy. apply F in Fy. destruct (I Fy) as [z Z]. exists z. now rewrite <- R. Qed.
Lemma Integral_min x y z : Integral x -> Integral y -> tx z = xmin (tx x) (tx y) -> Integral z.
Proof.
  intros Ix Iy E. destruct (xle_total (tx x) (tx y)) as [Q | Q]; [apply NoNaN_tx, Ix | apply NoNaN_tx, Iy | |].
  - rewrite (xmin_l _ _ Q) in E. exact (Integral_tx _ _ (eq_sym E) Ix).
  - rewrite (xmin_r _ _ Q) in E. exact (Integral_tx _ _ (eq_sym E) Iy).
Qed.
Lemma Integral_max x y z : Integral x -> Integral y -> tx z = xmax (tx x) (tx y) -> Integral z.
Proof.
  intros Ix Iy E. destruct (xle_total (tx x) (tx y)) as [Q | Q]; [apply NoNaN_tx, Ix | apply NoNaN_tx, Iy | |].
  - rewrite (xmax_r _ _ Q) in E. exact (Integral_tx _ _ (eq_sym E) Iy).
  - rewrite (xmax_l _ _ Q) in E. exact (Integral_tx _ _ (eq_sym E) Ix).
Qed.
(* one axis *)
Lemma snap_axis x y : Le x y -> tx (s_min (sfloor x) (sceil y)) = xint Zfloor (tx x) /\ tx (s_max (sfloor x) (sceil y)) = xint Zceil (tx y).
Proof.
  intros H. apply Le_tx in H. assert (N : xnan (tx x) = false /\ xnan (tx y) = false) by (split; destruct (tx x), (tx y); first [reflexivity | discriminate H]). destruct N as [Nx Ny].
  assert (K : xle (xint Zfloor (tx x)) (xint Zceil (tx y)) = true) by (apply (xle_trans _ _ _ (xfloor_le _ Nx)), (xle_trans _ _ _ H), xceil_ge, Ny).
  rewrite tx_smin, tx_smax, tx_floor, tx_ceil. split; [now apply xmin_l | now apply xmax_r].
Qed.
End A.
Lemma snap2_coord {A : arith} (b : BoundingBox2 (num A)) d : Ordered2 b -> tx (coord2 (bb2_min (snap2 b)) d) = xint Zfloor (tx (coord2 (bb2_min b) d)) /\ tx (coord2 (bb2_max (snap2 b)) d) = xint Zceil (tx (coord2 (bb2_max b) d)).
Proof. intros O. pose proof (snap_axis _ _ (O d)) as K. destruct d; exact K. Qed.
Lemma ord2_nan {A : arith} (b : BoundingBox2 (num A)) d : Ordered2 b -> xnan (tx (coord2 (bb2_min b) d)) = false /\ xnan (tx (coord2 (bb2_max b) d)) = false.
Proof. intros O. destruct (Ordered2_NoNaN (num_OrdLaws A) b O) as [N1 N2]. split; apply NoNaN_tx; [apply N1 | apply N2]. Qed.
Lemma snap3_coord {A : arith} (b : BoundingBox3 (num A)) d : Ordered3 b -> tx (coord3 (bb3_min (snap3 b)) d) = xint Zfloor (tx (coord3 (bb3_min b) d)) /\ tx (coord3 (bb3_max (snap3 b)) d) = xint Zceil (tx (coord3 (bb3_max b) d)).
Proof. intros O. pose proof (snap_axis _ _ (O d)) as K. destruct d; exact K. Qed.
Lemma ord3_nan {A : arith} (b : BoundingBox3 (num A)) d : Ordered3 b -> xnan (tx (coord3 (bb3_min b) d)) = false /\ xnan (tx (coord3 (bb3_max b) d)) = false.
Proof. intros O. destruct (Ordered3_NoNaN (num_OrdLaws A) b O) as [N1 N2]. split; apply NoNaN_tx; [apply N1 | apply N2]. Qed.
Lemma C110_snap_contains_2d_pf : forall (A : arith) (b : BoundingBox2 (num A)), Ordered2 b -> Ordered2 (snap2 b) /\ IntBox2 (snap2 b) /\ Incl2 b (snap2 b).
Proof.
  intros A b O. assert (K : PLe2 (bb2_min (snap2 b)) (bb2_min b) /\ PLe2 (bb2_max b) (bb2_max (snap2 b))).
  { split; intros d; destruct (snap2_coord b d O) as [E1 E2]; destruct (ord2_nan b d O) as [N1 N2]; apply Le_tx; [rewrite E1; now apply xfloor_le | rewrite E2; now apply xceil_ge]. }
  destruct K as [K1 K2]. pose proof (num_OrdLaws A) as L. split; [|split].
  - intros d. exact (Le_trans L _ _ _ (K1 d) (Le_trans L _ _ _ (O d) (K2 d))).
  - split; intros d; destruct (snap2_coord b d O) as [E1 E2]; destruct (Ordered2_NoNaN L b O) as [N1 N2]; [exact (xint_Integral _ _ _ (N1 d) E1) | exact (xint_Integral _ _ _ (N2 d) E2)].
  - now apply (Incl2_iff L).
Qed.
Lemma C110_snap_contains_3d_pf : forall (A : arith) (b : BoundingBox3 (num A)), Ordered3 b -> Ordered3 (snap3 b) /\ IntBox3 (snap3 b) /\ Incl3 b (snap3 b).
Proof.
  intros A b O. assert (K : PLe3 (bb3_min (snap3 b)) (bb3_min b) /\ PLe3 (bb3_max b) (bb3_max (snap3 b))).
  { split; intros d; destruct (snap3_coord b d O) as [E1 E2]; destruct (ord3_nan b d O) as [N1 N2]; apply Le_tx; [rewrite E1; now apply xfloor_le | rewrite E2; now apply xceil_ge]. }
  destruct K as [K1 K2]. pose proof (num_OrdLaws A) as L. split; [|split].
  - intros d. exact (Le_trans L _ _ _ (K1 d) (Le_trans L _ _ _ (O d) (K2 d))).
  - split; intros d; destruct (snap3_coord b d O) as [E1 E2]; destruct (Ordered3_NoNaN L b O) as [N1 N2]; [exact (xint_Integral _ _ _ (N1 d) E1) | exact (xint_Integral _ _ _ (N2 d) E2)].
  - now apply (Incl3_iff L).
Qed.
Lemma C110_snap_is_smallest_2d_pf : forall (A : arith) (b c : BoundingBox2 (num A)), Ordered2 b -> IntBox2 c -> Incl2 b c -> Incl2 (snap2 b) c.
Proof.
  intros A b c O [I1 I2] H. pose proof (num_OrdLaws A) as L. apply (Incl2_iff L) in H; [|assumption]. apply (Incl2_iff L); [exact (proj1 (C110_snap_contains_2d_pf A b O))|]. destruct H as [H1 H2].
  split; intros d; destruct (snap2_coord b d O) as [E1 E2]; apply Le_tx.
  - rewrite E1, <- (Integral_fix Zfloor _ Zfloor_IZR (I1 d)). apply xint_mono; [intros; now apply Zfloor_le|]. apply Le_tx, H1.
  - rewrite E2, <- (Integral_fix Zceil _ Zceil_IZR (I2 d)). apply xint_mono; [intros; now apply Zceil_le|]. apply Le_tx, H2.
Qed.
Lemma C110_snap_is_smallest_3d_pf : forall (A : arith) (b c : BoundingBox3 (num A)), Ordered3 b -> IntBox3 c -> Incl3 b c -> Incl3 (snap3 b) c.
Proof.
  intros A b c O [I1 I2] H. pose proof (num_OrdLaws A) as L. apply (Incl3_iff L) in H; [|assumption]. apply (Incl3_iff L); [exact (proj1 (C110_snap_contains_3d_pf A b O))|]. destruct H as [H1 H2].
  split; intros d; destruct (snap3_coord b d O) as [E1 E2]; apply Le_tx.
  - rewrite E1, <- (Integral_fix Zfloor _ Zfloor_IZR (I1 d)). apply xint_mono; [intros; now apply Zfloor_le|]. apply Le_tx, H1.
  - rewrite E2, <- (Integral_fix Zceil _ Zceil_IZR (I2 d)). apply xint_mono; [intros; now apply Zceil_le|]. apply Le_tx, H2.
Qed.
Lemma C110_rounded_points_2d_pf : forall (A : arith) (b : BoundingBox2 (num A)) (p : Point2 (num A)), bb2_is_inside b p = true ->
  bb2_is_inside (snap2 b) (p2_floor p) = true /\ bb2_is_inside (snap2 b) (p2_ceil p) = true /\ bb2_is_inside (snap2 b) (p2_round p) = true /\ bb2_is_inside (snap2 b) (p2_trunc p) = true.
Proof.
  intros A b p I. apply bb2_is_inside_iff in I. assert (O : Ordered2 b) by exact (In2_Ordered (num_OrdLaws A) p b I). destruct I as [I1 I2].
  assert (K : forall (f : R -> Z) q, (forall a, (Zfloor a <= f a <= Zceil a)%Z) -> (forall d, tx (coord2 q d) = xint f (tx (coord2 p d))) -> bb2_is_inside (snap2 b) q = true).
  { intros f q H E. apply bb2_is_inside_iff. split; intros d; destruct (snap2_coord b d O) as [E1 E2]; specialize (I1 d); specialize (I2 d); apply Le_tx in I1, I2; assert (N : xnan (tx (coord2 p d)) = false) by (destruct (tx (coord2 p d)), (tx (coord2 (bb2_min b) d)); first [reflexivity | discriminate I1]);
    destruct (xint_between f _ H N) as [B1 B2]; apply Le_tx; rewrite E.
    - rewrite E1. refine (xle_trans _ _ _ _ B1). apply xint_mono; [intros; now apply Zfloor_le | assumption].
    - rewrite E2. refine (xle_trans _ _ _ B2 _). apply xint_mono; [intros; now apply Zceil_le | assumption]. }
  split; [|split; [|split]].
  - apply (K Zfloor); [exact floor_between | intros d; destruct d; apply tx_floor].
  - apply (K Zceil); [exact ceil_between | intros d; destruct d; apply tx_ceil].
  - apply (K (Znearest (Zle_bool 0))); [intros; apply near_between | intros d; destruct d; apply tx_round].
  - apply (K Ztrunc); [exact trunc_between | intros d; destruct d; apply tx_trunc].
Qed.
Lemma C110_rounded_points_3d_pf : forall (A : arith) (b : BoundingBox3 (num A)) (p : Point3 (num A)), bb3_is_inside b p = true ->
  bb3_is_inside (snap3 b) (p3_floor p) = true /\ bb3_is_inside (snap3 b) (p3_ceil p) = true /\ bb3_is_inside (snap3 b) (p3_round p) = true /\ bb3_is_inside (snap3 b) (p3_trunc p) = true.
Proof.
  intros A b p I. apply bb3_is_inside_iff in I. assert (O : Ordered3 b) by exact (In3_Ordered (num_OrdLaws A) p b I). destruct I as [I1 I2].
  assert (K : forall (f : R -> Z) q, (forall a, (Zfloor a <= f a <= Zceil a)%Z) -> (forall d, tx (coord3 q d) = xint f (tx (coord3 p d))) -> bb3_is_inside (snap3 b) q = true).
  { intros f q H E. apply bb3_is_inside_iff. split; intros d; destruct (snap3_coord b d O) as [E1 E2]; specialize (I1 d); specialize (I2 d); apply Le_tx in I1, I2; assert (N : xnan (tx (coord3 p d)) = false) by (destruct (tx (coord3 p d)), (tx (coord3 (bb3_min b) d)); first [reflexivity | discriminate I1]);
    destruct (xint_between f _ H N) as [B1 B2]; apply Le_tx; rewrite E.
    - rewrite E1. refine (xle_trans _ _ _ _ B1). apply xint_mono; [intros; now apply Zfloor_le | assumption].
    - rewrite E2. refine (xle_trans _ _ _ B2 _). apply xint_mono; [intros; now apply Zceil_le | assumption]. }
  split; [|split; [|split]].
  - apply (K Zfloor); [exact floor_between | intros d; destruct d; apply tx_floor].
  - apply (K Zceil); [exact ceil_between | intros d; destruct d; apply tx_ceil].
  - apply (K (Znearest (Zle_bool 0))); [intros; apply near_between | intros d; destruct d; apply tx_round].
  - apply (K Ztrunc); [exact trunc_between | intros d; destruct d; apply tx_trunc].
Qed.
Lemma C110_snap_algebra_2d_pf : forall (A : arith) (a b : BoundingBox2 (num A)), Ordered2 a -> Ordered2 b ->
  BEq2 (snap2 (snap2 a)) (snap2 a) /\ (Incl2 a b -> Incl2 (snap2 a) (snap2 b)) /\ BEq2 (snap2 (bb2_union a b)) (bb2_union (snap2 a) (snap2 b)) /\
  (bb2_overlaps a b = true -> bb2_overlaps (snap2 a) (snap2 b) = true).
Proof.
  intros A a b Oa Ob. pose proof (num_OrdLaws A) as L. destruct (C110_snap_contains_2d_pf A a Oa) as (Sa & Ia & Ca). destruct (C110_snap_contains_2d_pf A b Ob) as (Sb & Ib & Cb).
  assert (M : forall c d : BoundingBox2 (num A), Ordered2 c -> Ordered2 d -> Incl2 c d -> Incl2 (snap2 c) (snap2 d)).
  { intros c d Oc Od H. destruct (C110_snap_contains_2d_pf A d Od) as (_ & Id & Cd). apply C110_snap_is_smallest_2d_pf; [assumption..|]. intros p Ip. now apply Cd, H. }
  assert (I2 : forall c : BoundingBox2 (num A), Ordered2 c -> BEq2 (snap2 (snap2 c)) (snap2 c)).
  { intros c Oc. destruct (C110_snap_contains_2d_pf A c Oc) as (Sc & Ic & _). destruct (C110_snap_contains_2d_pf A _ Sc) as (S2 & _ & C2). apply (Incl2_antisym L); try assumption. apply C110_snap_is_smallest_2d_pf; try assumption. intros p Ip; exact Ip. }
  split; [now apply I2|]. split; [now apply M|]. pose proof (bb2_union_ordered L a b Oa Ob) as Ou. split.
  - apply (Incl2_antisym L); [exact (proj1 (C110_snap_contains_2d_pf A _ Ou)) | now apply (bb2_union_ordered L) | |].
    + apply C110_snap_is_smallest_2d_pf; [assumption | | ].
      * destruct Ia as [Ia1 Ia2], Ib as [Ib1 Ib2].
        assert (X : forall d, Integral (coord2 (p2_min (bb2_min (snap2 a)) (bb2_min (snap2 b))) d) /\ Integral (coord2 (p2_max (bb2_max (snap2 a)) (bb2_max (snap2 b))) d)).
        { intros d. specialize (Ia1 d). specialize (Ia2 d). specialize (Ib1 d). specialize (Ib2 d). destruct d; (split; [refine (Integral_min _ _ _ Ia1 Ib1 _); apply tx_smin | refine (Integral_max _ _ _ Ia2 Ib2 _); apply tx_smax]). }
        split; intros d; destruct (X d) as [X1 X2]; destruct d; first [refine (Integral_min _ _ _ X1 X2 _); apply tx_smin | refine (Integral_max _ _ _ X1 X2 _); apply tx_smax].
      * apply (bb2_union_least L); [assumption.. | |]; intros p Ip; [apply (bb2_union_l L _ _ Sa Sb), Ca, Ip | apply (bb2_union_r L _ _ Sa Sb), Cb, Ip].
    + apply (bb2_union_least L); [assumption.. | |]; apply M; try assumption; [now apply (bb2_union_l L) | now apply (bb2_union_r L)].
  - intros H. apply (bb2_overlaps_iff L) in H; [|assumption..]. apply (bb2_overlaps_iff L); [assumption..|]. destruct H as (p & P1 & P2). exists p. split; [now apply Ca | now apply Cb].
Qed.
Lemma C110_snap_algebra_3d_pf : forall (A : arith) (a b : BoundingBox3 (num A)), Ordered3 a -> Ordered3 b ->
  BEq3 (snap3 (snap3 a)) (snap3 a) /\ (Incl3 a b -> Incl3 (snap3 a) (snap3 b)) /\ BEq3 (snap3 (bb3_union a b)) (bb3_union (snap3 a) (snap3 b)) /\
  (bb3_overlaps a b = true -> bb3_overlaps (snap3 a) (snap3 b) = true).
Proof.
  intros A a b Oa Ob. pose proof (num_OrdLaws A) as L. destruct (C110_snap_contains_3d_pf A a Oa) as (Sa & Ia & Ca). destruct (C110_snap_contains_3d_pf A b Ob) as (Sb & Ib & Cb).
  assert (M : forall c d : BoundingBox3 (num A), Ordered3 c -> Ordered3 d -> Incl3 c d -> Incl3 (snap3 c) (snap3 d)).
  { intros c d Oc Od H. destruct (C110_snap_contains_3d_pf A d Od) as (_ & Id & Cd). apply C110_snap_is_smallest_3d_pf; [assumption..|]. intros p Ip. now apply Cd, H. }
  assert (I2 : forall c : BoundingBox3 (num A), Ordered3 c -> BEq3 (snap3 (snap3 c)) (snap3 c)).
  { intros c Oc. destruct (C110_snap_contains_3d_pf A c Oc) as (Sc & Ic & _). destruct (C110_snap_contains_3d_pf A _ Sc) as (S2 & _ & C2). apply (Incl3_antisym L); try assumption. apply C110_snap_is_smallest_3d_pf; try assumption. intros p Ip; exact Ip. }
  split; [now apply I2|]. split; [now apply M|]. pose proof (bb3_union_ordered L a b Oa Ob) as Ou. split.
  - apply (Incl3_antisym L); [exact (proj1 (C110_snap_contains_3d_pf A _ Ou)) | now apply (bb3_union_ordered L) | |].
    + apply C110_snap_is_smallest_3d_pf; [assumption | | ].
      * destruct Ia as [Ia1 Ia2], Ib as [Ib1 Ib2].
        assert (X : forall d, Integral (coord3 (p3_min (bb3_min (snap3 a)) (bb3_min (snap3 b))) d) /\ Integral (coord3 (p3_max (bb3_max (snap3 a)) (bb3_max (snap3 b))) d)).
        { intros d. specialize (Ia1 d). specialize (Ia2 d). specialize (Ib1 d). specialize (Ib2 d). destruct d; (split; [refine (Integral_min _ _ _ Ia1 Ib1 _); apply tx_smin | refine (Integral_max _ _ _ Ia2 Ib2 _); apply tx_smax]). }
        split; intros d; destruct (X d) as [X1 X2]; destruct d; first [refine (Integral_min _ _ _ X1 X2 _); apply tx_smin | refine (Integral_max _ _ _ X1 X2 _); apply tx_smax].
      * apply (bb3_union_least L); [assumption.. | |]; intros p Ip; [apply (bb3_union_l L _ _ Sa Sb), Ca, Ip | apply (bb3_union_r L _ _ Sa Sb), Cb, Ip].
    + apply (bb3_union_least L); [assumption.. | |]; apply M; try assumption; [now apply (bb3_union_l L) | now apply (bb3_union_r L)].
  - intros H. apply (bb3_overlaps_iff L) in H; [|assumption..]. apply (bb3_overlaps_iff L); [assumption..|]. destruct H as (p & P1 & P2). exists p. split; [now apply Ca | now apply Cb].
Qed.
Lemma C110_snap_distance_2d_pf : forall (A : arith) (b : BoundingBox2 (num A)) (d : Dimension2), Ordered2 b ->
  let lo := coord2 (bb2_min b) d in let hi := coord2 (bb2_max b) d in let lo' := coord2 (bb2_min (snap2 b)) d in let hi' := coord2 (bb2_max (snap2 b)) d in
  (Finite lo -> Finite lo' /\ real_of lo - 1 < real_of lo' <= real_of lo) /\ (Finite hi -> Finite hi' /\ real_of hi <= real_of hi' < real_of hi + 1).
Proof.
  intros A b d O. cbv zeta. destruct (snap2_coord b d O) as [E1 E2]. split; intros F; rewrite (Finite_real _ F) in *; cbn [xint] in E1, E2.
  - split; [exact (proj1 (real_of_fin _ _ E1))|]. rewrite (proj2 (real_of_fin _ _ E1)). set (x := real_of (coord2 (bb2_min b) d)). pose proof (Zfloor_lb x). pose proof (Zfloor_ub x). lra.
  - split; [exact (proj1 (real_of_fin _ _ E2))|]. rewrite (proj2 (real_of_fin _ _ E2)). set (y := real_of (coord2 (bb2_max b) d)). pose proof (Zceil_ub y). pose proof (Zceil_lb y). lra.
Qed.
Lemma C110_snap_distance_3d_pf : forall (A : arith) (b : BoundingBox3 (num A)) (d : Dimension3), Ordered3 b ->
  let lo := coord3 (bb3_min b) d in let hi := coord3 (bb3_max b) d in let lo' := coord3 (bb3_min (snap3 b)) d in let hi' := coord3 (bb3_max (snap3 b)) d in
  (Finite lo -> Finite lo' /\ real_of lo - 1 < real_of lo' <= real_of lo) /\ (Finite hi -> Finite hi' /\ real_of hi <= real_of hi' < real_of hi + 1).
Proof.
  intros A b d O. cbv zeta. destruct (snap3_coord b d O) as [E1 E2]. split; intros F; rewrite (Finite_real _ F) in *; cbn [xint] in E1, E2.
  - split; [exact (proj1 (real_of_fin _ _ E1))|]. rewrite (proj2 (real_of_fin _ _ E1)). set (x := real_of (coord3 (bb3_min b) d)). pose proof (Zfloor_lb x). pose proof (Zfloor_ub x). lra.
  - split; [exact (proj1 (real_of_fin _ _ E2))|]. rewrite (proj2 (real_of_fin _ _ E2)). set (y := real_of (coord3 (bb3_max b) d)). pose proof (Zceil_ub y). pose proof (Zceil_lb y). lra.
Qed.
Lemma C110_cell_2d_pf : forall (A : arith) (p : Point2 (num A)), Finite2 p -> let b := bb2_new (p2_floor p) (p2_ceil p) in
  bb2_is_inside b p = true /\ (forall c : BoundingBox2 (num A), IntBox2 c -> bb2_is_inside c p = true -> Incl2 b c) /\
  forall d, let e := real_of (coord2 (bb2_max b) d) - real_of (coord2 (bb2_min b) d) in (Integral (coord2 p d) -> e = 0) /\ (~ Integral (coord2 p d) -> e = 1).
Proof.
  intros A p F. cbv zeta. set (q := mkBB2 p p). pose proof (num_OrdLaws A) as L. change (bb2_new (p2_floor p) (p2_ceil p)) with (snap2 q).
  assert (N : NoNaN2 p) by (intros d; apply NoNaN_tx; now rewrite (Finite_real _ (F d))). assert (O : Ordered2 q) by (intros d; apply (Le_refl L), N). destruct (C110_snap_contains_2d_pf A q O) as (S1 & S2 & S3). split; [|split].
  - apply bb2_is_inside_iff, S3. split; exact O.
  - intros c I H. apply C110_snap_is_smallest_2d_pf; [assumption..|]. apply (Incl2_iff L); [assumption|]. apply bb2_is_inside_iff in H. destruct H as [H1 H2]. now split.
  - intros d. destruct (snap2_coord q d O) as [E1 E2]. change (bb2_min q) with p in E1. change (bb2_max q) with p in E2. rewrite (Finite_real _ (F d)) in E1, E2. cbn [xint] in E1, E2.
    rewrite (proj2 (real_of_fin _ _ E1)), (proj2 (real_of_fin _ _ E2)). split.
    + intros [_ I]. destruct (I (F d)) as [z ->]. rewrite Zfloor_IZR, Zceil_IZR. ring.
    + intros I. rewrite Zceil_floor_neq; [rewrite plus_IZR; ring|]. intros Z. apply I. split; [apply N | intros _; eexists; symmetry; exact Z].
Qed.
Lemma C110_cell_3d_pf : forall (A : arith) (p : Point3 (num A)), Finite3 p -> let b := bb3_new (p3_floor p) (p3_ceil p) in
  bb3_is_inside b p = true /\ (forall c : BoundingBox3 (num A), IntBox3 c -> bb3_is_inside c p = true -> Incl3 b c) /\
  forall d, let e := real_of (coord3 (bb3_max b) d) - real_of (coord3 (bb3_min b) d) in (Integral (coord3 p d) -> e = 0) /\ (~ Integral (coord3 p d) -> e = 1).
Proof.
  intros A p F. cbv zeta. set (q := mkBB3 p p). pose proof (num_OrdLaws A) as L. change (bb3_new (p3_floor p) (p3_ceil p)) with (snap3 q).
  assert (N : NoNaN3 p) by (intros d; apply NoNaN_tx; now rewrite (Finite_real _ (F d))). assert (O : Ordered3 q) by (intros d; apply (Le_refl L), N). destruct (C110_snap_contains_3d_pf A q O) as (S1 & S2 & S3). split; [|split].
  - apply bb3_is_inside_iff, S3. split; exact O.
  - intros c I H. apply C110_snap_is_smallest_3d_pf; [assumption..|]. apply (Incl3_iff L); [assumption|]. apply bb3_is_inside_iff in H. destruct H as [H1 H2]. now split.
  - intros d. destruct (snap3_coord q d O) as [E1 E2]. change (bb3_min q) with p in E1. change (bb3_max q) with p in E2. rewrite (Finite_real _ (F d)) in E1, E2. cbn [xint] in E1, E2.
    rewrite (proj2 (real_of_fin _ _ E1)), (proj2 (real_of_fin _ _ E2)). split.
    + intros [_ I]. destruct (I (F d)) as [z ->]. rewrite Zfloor_IZR, Zceil_IZR. ring.
    + intros I. rewrite Zceil_floor_neq; [rewrite plus_IZR; ring|]. intros Z. apply I. split; [apply N | intros _; eexists; symmetry; exact Z].
Qed.
