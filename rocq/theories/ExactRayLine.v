(** Proofs: restarting, rescaling and reversing a ray (exact arithmetic, C95). *)
From Coq Require Import Bool NArith ZArith Reals List Lra Lia Psatz.
From Flocq Require Import Core.Raux.
From Verif Require Import Scalar Types Vector2 Vector3 Point2 Point3 Ray BoundingBox2 BoundingBox3 Transform2 Transform3
  XReal OrdLaws Arith SpecOrder SpecStruct SpecReal SpecBox SpecTrans SpecAxis XTac ExactBase ExactVec Adj4 ExactMat ExactRot ExactTrans ExactBox ExactTransBox ExactTransRay.
Import ListNotations.
Local Open Scope R_scope.
Lemma slab_reparam o d lo hi c k t : k <> 0 -> (slab_seen (o + c * d) (d * k) lo hi t <-> slab_seen o d lo hi (c + k * t)).
Proof.
  intros K. unfold slab_seen. replace (o + c * d + t * (d * k)) with (o + (c + k * t) * d) by ring.
  assert (Z : d * k = 0 <-> d = 0) by (split; [intros X; apply Rmult_integral in X; tauto | intros ->; ring]).
  split; intros [A B]; (split; [exact A|]); intros D; [assert (D' := proj2 Z D) | assert (D' := proj1 Z D)]; specialize (B D'); [rewrite D in B | rewrite D']; rewrite ?Rmult_0_l, ?Rmult_0_r, ?Rplus_0_r in *; exact B.
Qed.
Lemma slab_convex o d lo hi a b t : slab_seen o d lo hi a -> slab_seen o d lo hi b -> a <= t <= b -> slab_seen o d lo hi t.
Proof.
  intros [A1 A2] [B1 B2] T. split; [|exact A2]. destruct (Rle_dec 0 d); split; nra.
Qed.
Definition Rsc2 (v : Vector2 R) (k : R) : Vector2 R := mkVector2 (v2x v * k) (v2y v * k).
Definition Rsc3 (v : Vector3 R) (k : R) : Vector3 R := mkVector3 (v3x v * k) (v3y v * k) (v3z v * k).
Lemma Rsc2_nz v k : k <> 0 -> v <> Rzero2 -> Rsc2 v k <> Rzero2.
Proof. intros K H E. apply H. destruct v. unfold Rsc2, Rzero2 in *. cbn in E. injection E. intros. f_equal; nra. Qed.
Definition Rre2 (r : Ray2 R) (c k : R) : Ray2 R := mkRay2 (Rat2 r c) (Rsc2 (r2_direction r) k).
Lemma xre2 r c k : r2_new (r2_at (XR2 r) (Fin c)) (v2_mul (r2_direction (XR2 r)) (Fin k)) = XR2 (Rre2 r c k).
Proof. rewrite xr2_at. cbn [r2_direction XR2]. rewrite xv2_mul. reflexivity. Qed.
Lemma xre_neg2 r c k : r2_new (r2_at (XR2 r) (Fin c)) (v2_mul (v2_neg (r2_direction (XR2 r))) (Fin k)) = XR2 (Rre2 r c (- k)).
Proof. rewrite xr2_at. unfold Rre2. destruct r as [o d]. destruct d. cbn. unfold v2_neg, v2_mul, v2_new, r2_new, XR2, XV2, Rsc2. cbn. f_equal. f_equal; apply Fin_eq; ring. Qed.
Lemma seen_re2 b r c k t : k <> 0 -> (seen2 b (Rre2 r c k) t <-> seen2 b r (c + k * t)).
Proof. intros K. unfold seen2, Rre2, Rat2, Rsc2. cbn. rewrite !slab_reparam by exact K. tauto. Qed.
Lemma seen_convex2 b r x y t : seen2 b r x -> seen2 b r y -> x <= t <= y -> seen2 b r t.
Proof. unfold seen2. intros H1 H2 T. decompose [and] H1. decompose [and] H2. repeat match goal with |- _ /\ _ => split end; (eapply slab_convex; [| |exact T]; assumption). Qed.
Lemma Rsc3_nz v k : k <> 0 -> v <> Rzero3 -> Rsc3 v k <> Rzero3.
Proof. intros K H E. apply H. destruct v. unfold Rsc3, Rzero3 in *. cbn in E. injection E. intros. f_equal; nra. Qed.
Definition Rre3 (r : Ray3 R) (c k : R) : Ray3 R := mkRay3 (Rat3 r c) (Rsc3 (r3_direction r) k).
Lemma xre3 r c k : r3_new (r3_at (XR3 r) (Fin c)) (v3_mul (r3_direction (XR3 r)) (Fin k)) = XR3 (Rre3 r c k).
Proof. rewrite xr3_at. cbn [r3_direction XR3]. rewrite xv3_mul. reflexivity. Qed.
Lemma xre_neg3 r c k : r3_new (r3_at (XR3 r) (Fin c)) (v3_mul (v3_neg (r3_direction (XR3 r))) (Fin k)) = XR3 (Rre3 r c (- k)).
Proof. rewrite xr3_at. unfold Rre3. destruct r as [o d]. destruct d. cbn. unfold v3_neg, v3_mul, v3_new, r3_new, XR3, XV3, Rsc3. cbn. f_equal. f_equal; apply Fin_eq; ring. Qed.
Lemma seen_re3 b r c k t : k <> 0 -> (seen3 b (Rre3 r c k) t <-> seen3 b r (c + k * t)).
Proof. intros K. unfold seen3, Rre3, Rat3, Rsc3. cbn. rewrite !slab_reparam by exact K. tauto. Qed.
Lemma seen_convex3 b r x y t : seen3 b r x -> seen3 b r y -> x <= t <= y -> seen3 b r t.
Proof. unfold seen3. intros H1 H2 T. decompose [and] H1. decompose [and] H2. repeat match goal with |- _ /\ _ => split end; (eapply slab_convex; [| |exact T]; assumption). Qed.
Lemma C95_restart_and_rescale_2d_pf : forall (b : BoundingBox2 R) (r : Ray2 R) (c k : R), Rordered2 b -> r2_direction r <> Rzero2 -> 0 <= c -> 0 < k ->
  let r' := r2_new (r2_at (XR2 r) (Fin c)) (v2_mul (r2_direction (XR2 r)) (Fin k)) in
  match bb2_intersect_ray (XB2 b) (XR2 r) with
  | None => bb2_intersect_ray (XB2 b) r' = None
  | Some (s, e) => exists s' e' : R, s = Fin s' /\ e = Fin e' /\
      (c <= e' -> bb2_intersect_ray (XB2 b) r' = Some (Fin ((Rmax s' c - c) / k), Fin ((e' - c) / k))) /\
      (e' < c -> bb2_intersect_ray (XB2 b) r' = None)
  end.
Proof.
  intros b r c k O D C K r'. unfold r'. rewrite xre2. clear r'. assert (Kn : k <> 0) by lra. assert (Ki := Rinv_0_lt_compat k K).
  pose proof (C17_what_is_reported_2d_pf b r O D) as H. pose proof (C17_what_is_reported_2d_pf b (Rre2 r c k) O (Rsc2_nz _ _ Kn D)) as H'.
  destruct (bb2_intersect_ray (XB2 b) (XR2 r)) as [[s e]|].
  - destruct H as (s' & e' & -> & -> & L & H & _). exists s', e'. split; [reflexivity|]. split; [reflexivity|]. split; intros Q.
    + apply (range_unique (seen2 b (Rre2 r c k))).
      * destruct (bb2_intersect_ray (XB2 b) (XR2 (Rre2 r c k))) as [[s1 e1]|]; [|exact H']. destruct H' as (x & y & E1 & E2 & L' & H' & _). now exists x, y.
      * eexists _, _. split; [reflexivity|]. split; [reflexivity|]. pose proof (Rmax_l s' c). pose proof (Rmax_r s' c).
        assert (M : Rmax s' c <= e') by (apply Rmax_lub; lra). unfold Rdiv. split; [split; [apply Rmult_le_pos; lra | apply Rmult_le_compat_r; lra]|].
        intros t Ht. rewrite seen_re2 by exact Kn. rewrite H by nra.
        assert (T : k * t = k * t) by reflexivity. assert (X : forall z, z * / k <= t <-> z <= k * t).
        { intros z. split; intros Z; [apply (Rmult_le_compat_l k) in Z; [|lra]; replace (k * (z * / k)) with z in Z by (field; exact Kn); exact Z | apply (Rmult_le_reg_l k); [exact K|]; replace (k * (z * / k)) with z by (field; exact Kn); exact Z]. }
        assert (Y : forall z, t <= z * / k <-> k * t <= z).
        { intros z. split; intros Z; [apply (Rmult_le_compat_l k) in Z; [|lra]; replace (k * (z * / k)) with z in Z by (field; exact Kn); exact Z | apply (Rmult_le_reg_l k); [exact K|]; replace (k * (z * / k)) with z by (field; exact Kn); exact Z]. }
        rewrite X, Y. pose proof (Rmult_le_pos k t (Rlt_le _ _ K) Ht). destruct (Rmax_Rle s' c (c + k * t)) as [_ _]. split; intros [Z1 Z2]; split; try lra.
        assert (Rmax s' c <= c + k * t) by (apply Rmax_lub; lra). lra.
    + destruct (bb2_intersect_ray (XB2 b) (XR2 (Rre2 r c k))) as [[s1 e1]|]; [|reflexivity]. exfalso. destruct H' as (x & y & E1 & E2 & L' & H' & _).
      assert (S : seen2 b (Rre2 r c k) x) by (apply H'; lra). apply seen_re2 in S; [|exact Kn]. assert (0 <= k * x) by (apply Rmult_le_pos; lra). apply H in S; lra.
  - destruct (bb2_intersect_ray (XB2 b) (XR2 (Rre2 r c k))) as [[s1 e1]|]; [|reflexivity]. exfalso. destruct H' as (x & y & E1 & E2 & L' & H' & _).
    assert (S : seen2 b (Rre2 r c k) x) by (apply H'; lra). apply seen_re2 in S; [|exact Kn]. assert (0 <= k * x) by (apply Rmult_le_pos; lra). apply H in S; [exact S | lra].
Qed.
Lemma C95_restart_and_rescale_3d_pf : forall (b : BoundingBox3 R) (r : Ray3 R) (c k : R), Rordered3 b -> r3_direction r <> Rzero3 -> 0 <= c -> 0 < k ->
  let r' := r3_new (r3_at (XR3 r) (Fin c)) (v3_mul (r3_direction (XR3 r)) (Fin k)) in
  match bb3_intersect_ray (XB3 b) (XR3 r) with
  | None => bb3_intersect_ray (XB3 b) r' = None
  | Some (s, e) => exists s' e' : R, s = Fin s' /\ e = Fin e' /\
      (c <= e' -> bb3_intersect_ray (XB3 b) r' = Some (Fin ((Rmax s' c - c) / k), Fin ((e' - c) / k))) /\
      (e' < c -> bb3_intersect_ray (XB3 b) r' = None)
  end.
Proof.
  intros b r c k O D C K r'. unfold r'. rewrite xre3. clear r'. assert (Kn : k <> 0) by lra. assert (Ki := Rinv_0_lt_compat k K).
  pose proof (C17_what_is_reported_3d_pf b r O D) as H. pose proof (C17_what_is_reported_3d_pf b (Rre3 r c k) O (Rsc3_nz _ _ Kn D)) as H'.
  destruct (bb3_intersect_ray (XB3 b) (XR3 r)) as [[s e]|].
  - destruct H as (s' & e' & -> & -> & L & H & _). exists s', e'. split; [reflexivity|]. split; [reflexivity|]. split; intros Q.
    + apply (range_unique (seen3 b (Rre3 r c k))).
      * destruct (bb3_intersect_ray (XB3 b) (XR3 (Rre3 r c k))) as [[s1 e1]|]; [|exact H']. destruct H' as (x & y & E1 & E2 & L' & H' & _). now exists x, y.
      * eexists _, _. split; [reflexivity|]. split; [reflexivity|]. pose proof (Rmax_l s' c). pose proof (Rmax_r s' c).
        assert (M : Rmax s' c <= e') by (apply Rmax_lub; lra). unfold Rdiv. split; [split; [apply Rmult_le_pos; lra | apply Rmult_le_compat_r; lra]|].
        intros t Ht. rewrite seen_re3 by exact Kn. rewrite H by nra.
        assert (T : k * t = k * t) by reflexivity. assert (X : forall z, z * / k <= t <-> z <= k * t).
        { intros z. split; intros Z; [apply (Rmult_le_compat_l k) in Z; [|lra]; replace (k * (z * / k)) with z in Z by (field; exact Kn); exact Z | apply (Rmult_le_reg_l k); [exact K|]; replace (k * (z * / k)) with z by (field; exact Kn); exact Z]. }
        assert (Y : forall z, t <= z * / k <-> k * t <= z).
        { intros z. split; intros Z; [apply (Rmult_le_compat_l k) in Z; [|lra]; replace (k * (z * / k)) with z in Z by (field; exact Kn); exact Z | apply (Rmult_le_reg_l k); [exact K|]; replace (k * (z * / k)) with z by (field; exact Kn); exact Z]. }
        rewrite X, Y. pose proof (Rmult_le_pos k t (Rlt_le _ _ K) Ht). destruct (Rmax_Rle s' c (c + k * t)) as [_ _]. split; intros [Z1 Z2]; split; try lra.
        assert (Rmax s' c <= c + k * t) by (apply Rmax_lub; lra). lra.
    + destruct (bb3_intersect_ray (XB3 b) (XR3 (Rre3 r c k))) as [[s1 e1]|]; [|reflexivity]. exfalso. destruct H' as (x & y & E1 & E2 & L' & H' & _).
      assert (S : seen3 b (Rre3 r c k) x) by (apply H'; lra). apply seen_re3 in S; [|exact Kn]. assert (0 <= k * x) by (apply Rmult_le_pos; lra). apply H in S; lra.
  - destruct (bb3_intersect_ray (XB3 b) (XR3 (Rre3 r c k))) as [[s1 e1]|]; [|reflexivity]. exfalso. destruct H' as (x & y & E1 & E2 & L' & H' & _).
    assert (S : seen3 b (Rre3 r c k) x) by (apply H'; lra). apply seen_re3 in S; [|exact Kn]. assert (0 <= k * x) by (apply Rmult_le_pos; lra). apply H in S; [exact S | lra].
Qed.
Lemma C95_reverse_2d_pf : forall (b : BoundingBox2 R) (r : Ray2 R) (s e c k : R), Rordered2 b -> r2_direction r <> Rzero2 -> 0 <= c -> 0 < k -> 0 < s ->
  bb2_intersect_ray (XB2 b) (XR2 r) = Some (Fin s, Fin e) ->
  bb2_intersect_ray (XB2 b) (r2_new (r2_at (XR2 r) (Fin (e + c))) (v2_mul (v2_neg (r2_direction (XR2 r))) (Fin k))) = Some (Fin (c / k), Fin ((c + (e - s)) / k)).
Proof.
  intros b r s e c k O D C K Sp E. rewrite xre_neg2. assert (Kn : - k <> 0) by lra. assert (Ki := Rinv_0_lt_compat k K).
  pose proof (C17_what_is_reported_2d_pf b r O D) as H. pose proof (C17_what_is_reported_2d_pf b (Rre2 r (e + c) (- k)) O (Rsc2_nz _ _ Kn D)) as H'.
  rewrite E in H. destruct H as (s' & e' & X1 & X2 & L & H & _). apply Fin_inj in X1, X2. subst s' e'.
  assert (HH : forall t, seen2 b r t <-> s <= t <= e).
  { intros t. destruct (Rle_dec 0 t) as [T|T]; [now apply H|]. split; [|lra]. intros Z. exfalso.
    assert (Z2 : seen2 b r (s / 2)) by (apply (seen_convex2 b r t s); [exact Z | apply H; lra | lra]). apply H in Z2; lra. }
  apply (range_unique (seen2 b (Rre2 r (e + c) (- k)))).
  - destruct (bb2_intersect_ray (XB2 b) (XR2 (Rre2 r (e + c) (- k)))) as [[s1 e1]|]; [|exact H']. destruct H' as (x & y & E1 & E2 & L' & H' & _). now exists x, y.
  - eexists _, _. split; [reflexivity|]. split; [reflexivity|]. unfold Rdiv. split; [split; [apply Rmult_le_pos; lra | apply Rmult_le_compat_r; lra]|].
    intros t Ht. rewrite seen_re2 by exact Kn. rewrite HH.
    assert (X : forall z, z * / k <= t <-> z <= k * t).
    { intros z. split; intros Z; [apply (Rmult_le_compat_l k) in Z; [|lra]; replace (k * (z * / k)) with z in Z by (field; lra); exact Z | apply (Rmult_le_reg_l k); [exact K|]; replace (k * (z * / k)) with z by (field; lra); exact Z]. }
    assert (Y : forall z, t <= z * / k <-> k * t <= z).
    { intros z. split; intros Z; [apply (Rmult_le_compat_l k) in Z; [|lra]; replace (k * (z * / k)) with z in Z by (field; lra); exact Z | apply (Rmult_le_reg_l k); [exact K|]; replace (k * (z * / k)) with z by (field; lra); exact Z]. }
    rewrite X, Y. replace (- k * t) with (- (k * t)) by ring. split; intros [Z1 Z2]; lra.
Qed.
Lemma C95_reverse_3d_pf : forall (b : BoundingBox3 R) (r : Ray3 R) (s e c k : R), Rordered3 b -> r3_direction r <> Rzero3 -> 0 <= c -> 0 < k -> 0 < s ->
  bb3_intersect_ray (XB3 b) (XR3 r) = Some (Fin s, Fin e) ->
  bb3_intersect_ray (XB3 b) (r3_new (r3_at (XR3 r) (Fin (e + c))) (v3_mul (v3_neg (r3_direction (XR3 r))) (Fin k))) = Some (Fin (c / k), Fin ((c + (e - s)) / k)).
Proof.
  intros b r s e c k O D C K Sp E. rewrite xre_neg3. assert (Kn : - k <> 0) by lra. assert (Ki := Rinv_0_lt_compat k K).
  pose proof (C17_what_is_reported_3d_pf b r O D) as H. pose proof (C17_what_is_reported_3d_pf b (Rre3 r (e + c) (- k)) O (Rsc3_nz _ _ Kn D)) as H'.
  rewrite E in H. destruct H as (s' & e' & X1 & X2 & L & H & _). apply Fin_inj in X1, X2. subst s' e'.
  assert (HH : forall t, seen3 b r t <-> s <= t <= e).
  { intros t. destruct (Rle_dec 0 t) as [T|T]; [now apply H|]. split; [|lra]. intros Z. exfalso.
    assert (Z2 : seen3 b r (s / 2)) by (apply (seen_convex3 b r t s); [exact Z | apply H; lra | lra]). apply H in Z2; lra. }
  apply (range_unique (seen3 b (Rre3 r (e + c) (- k)))).
  - destruct (bb3_intersect_ray (XB3 b) (XR3 (Rre3 r (e + c) (- k)))) as [[s1 e1]|]; [|exact H']. destruct H' as (x & y & E1 & E2 & L' & H' & _). now exists x, y.
  - eexists _, _. split; [reflexivity|]. split; [reflexivity|]. unfold Rdiv. split; [split; [apply Rmult_le_pos; lra | apply Rmult_le_compat_r; lra]|].
    intros t Ht. rewrite seen_re3 by exact Kn. rewrite HH.
    assert (X : forall z, z * / k <= t <-> z <= k * t).
    { intros z. split; intros Z; [apply (Rmult_le_compat_l k) in Z; [|lra]; replace (k * (z * / k)) with z in Z by (field; lra); exact Z | apply (Rmult_le_reg_l k); [exact K|]; replace (k * (z * / k)) with z by (field; lra); exact Z]. }
    assert (Y : forall z, t <= z * / k <-> k * t <= z).
    { intros z. split; intros Z; [apply (Rmult_le_compat_l k) in Z; [|lra]; replace (k * (z * / k)) with z in Z by (field; lra); exact Z | apply (Rmult_le_reg_l k); [exact K|]; replace (k * (z * / k)) with z by (field; lra); exact Z]. }
    rewrite X, Y. replace (- k * t) with (- (k * t)) by ring. split; intros [Z1 Z2]; lra.
Qed.
Definition exb : BoundingBox2 R := mkBB2 (mkPoint2 2 (-1)) (mkPoint2 6 1).
Definition exr : Ray2 R := mkRay2 (mkPoint2 0 0) (mkVector2 1 0).
Lemma exb_hit : Rordered2 exb /\ r2_direction exr <> Rzero2 /\ bb2_intersect_ray (XB2 exb) (XR2 exr) = Some (Fin 2, Fin 6).
Proof.
  assert (O : Rordered2 exb) by (unfold Rordered2; cbn; lra). assert (D : r2_direction exr <> Rzero2) by (intros H; injection H; lra).
  split; [exact O|]. split; [exact D|]. pose proof (C17_what_is_reported_2d_pf exb exr O D) as H. apply (range_unique (seen2 exb exr)).
  - destruct (bb2_intersect_ray (XB2 exb) (XR2 exr)) as [[s e]|]; [|exact H]. destruct H as (x & y & E1 & E2 & L & H & _). now exists x, y.
  - exists 2, 6. split; [reflexivity|]. split; [reflexivity|]. split; [lra|]. intros t Ht. unfold seen2, slab_seen. cbn. lra.
Qed.
