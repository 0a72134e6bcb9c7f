(** Proofs: differences of nearby points are exact (C97). *)
From Coq Require Import Bool NArith ZArith Reals List Lra Lia.
From Flocq Require Import Core.Zaux Core.Raux Core.FLT Core.Generic_fmt Sterbenz IEEE754.BinarySingleNaN.
From Verif Require Import Scalar Types Vector2 Vector3 Point2 Point3 Ray BoundingBox2 BoundingBox3 Float
  XReal OrdLaws Arith SpecOrder SpecFloat SpecErr SpecReal SpecDiff OrderProofs FloatX XArith FloatLaws SlabBase ErrBase FloatErr FloatInv.
Import ListNotations.
Local Open Scope R_scope.
Section N.
Context {A : arith}.
Implicit Types x y z d : num A.
(* a sum or difference whose exact value is the value of some finite scalar is computed exactly *)
Lemma add_hit x y z : Finite x -> Finite y -> Finite z -> real_of x + real_of y = real_of z -> tx (sadd x y) = tx z.
Proof.
  intros Fx Fy Fz E. rewrite tx_add, (Finite_real x Fx), (Finite_real y Fy). cbn [xadd]. rewrite E, <- (Finite_real z Fz). apply xr_tx.
Qed.
Lemma sub_hit x y z : Finite x -> Finite y -> Finite z -> real_of x - real_of y = real_of z -> tx (ssub x y) = tx z.
Proof.
  intros Fx Fy Fz E. rewrite tx_sub, (Finite_real x Fx), (Finite_real y Fy). cbn [xsub xneg xadd]. fold (real_of x - real_of y). rewrite E, <- (Finite_real z Fz). apply xr_tx.
Qed.
Lemma near_sub x y : Finite x -> Finite y -> Nearby x y -> Finite (ssub x y) /\ real_of (ssub x y) = real_of x - real_of y.
Proof.
  intros Fx Fy N. pose proof (Finite_real x Fx) as Ex. pose proof (Finite_real y Fy) as Ey. apply Finite_intro.
  rewrite tx_sub, Ex, Ey. cbn [xsub xneg xadd]. fold (real_of x - real_of y). unfold Nearby in N.
  revert x y Fx Fy N Ex Ey. destruct A as [f P|]; intros x y Fx Fy N Ex Ey; [|reflexivity].
  destruct (repr_tx f P x _ Ex) as [Rx Bx]. destruct (repr_tx f P y _ Ey) as [Ry By].
  set (a := real_of x) in *. set (b := real_of y) in *.
  assert (G : repr f (a - b)).
  { destruct N as [N|N].
    - apply sterbenz; first [exact Rx | exact Ry | exact N | apply fexp_valid | idtac]. apply FLT_exp_monotone.
    - replace (a - b) with (- (- a - - b)) by ring. apply repr_opp. apply sterbenz; first [now apply repr_opp | lra | apply fexp_valid | idtac]. apply FLT_exp_monotone. }
  assert (B : Rabs (a - b) < fmax_bound f).
  { revert Bx By. unfold Rabs. repeat destruct Rcase_abs; intros; lra. }
  change (xr (IEEE f P)) with (xround f). pose proof (rnd_repr f _ G) as Q. apply Rabs_def2 in B.
  destruct (xround_cases f (a - b)) as [? | ? | ?]; rewrite ?Q in *; try lra. reflexivity.
Qed.
Lemma Eqs_of x y : Finite y -> tx x = tx y -> Eqs x y.
Proof. intros F E. apply Eqs_tx. split; [exact E|]. rewrite E. rewrite (Finite_real y F). discriminate. Qed.
Lemma near_back x y : Finite x -> Finite y -> Nearby x y -> Eqs (sadd y (ssub x y)) x /\ Eqs (ssub x (ssub x y)) y.
Proof.
  intros Fx Fy N. destruct (near_sub x y Fx Fy N) as [F E]. split; apply Eqs_of; try assumption; [apply add_hit | apply sub_hit]; try assumption; rewrite E; ring.
Qed.
Lemma tx_mul_1r x : tx (smul x sone) = tx x.
Proof.
  rewrite tx_mul, tx_1. rewrite <- (xr_tx x) at 2. f_equal. destruct (tx x) as [r| | |]; cbn [xmul xneg]; try reflexivity.
  - f_equal. ring.
  - unfold xsigned_inf. rewrite Rlt_bool_true by lra. reflexivity.
  - unfold xsigned_inf. rewrite Rlt_bool_true by lra. reflexivity.
Qed.
Lemma back_err x y : Finite (sadd y (ssub x y)) -> Rabs (real_of (sadd y (ssub x y)) - real_of x) <= unit_roundoff A * (Rabs (real_of x) + (1 + unit_roundoff A) * Rabs (real_of x - real_of y)).
Proof.
  intros F. destruct (err_add _ _ F) as (Fy & Fs & d & Hd & E). destruct (err_sub _ _ Fs) as (Fx & _ & e & He & E').
  rewrite E, E'. set (a := real_of x) in *. set (b := real_of y) in *. replace ((b + (a - b) * (1 + e)) * (1 + d) - a) with (d * a + (e * (1 + d)) * (a - b)) by ring.
  pose proof (u_pos (A:=A)) as U. set (u := unit_roundoff A) in *.
  eapply Rle_trans; [apply Rabs_triang|]. rewrite !Rabs_mult. assert (D1 : Rabs (1 + d) <= 1 + u) by (eapply Rle_trans; [apply Rabs_triang|]; rewrite Rabs_R1; lra).
  pose proof (Rabs_pos a). pose proof (Rabs_pos (a - b)). pose proof (Rabs_pos d). pose proof (Rabs_pos e). pose proof (Rabs_pos (1 + d)).
  assert (Rabs e * Rabs (1 + d) <= u * (1 + u)) by (apply Rmult_le_compat; lra).
  rewrite Rmult_plus_distr_l. apply Rplus_le_compat; [apply Rmult_le_compat_r; assumption|]. rewrite <- Rmult_assoc. apply Rmult_le_compat_r; assumption.
Qed.
Lemma sgn3 (s : xreal) a b : (a < b -> xlt s (Fin 0) = true) -> (b < a -> xlt (Fin 0) s = true) -> (a = b -> s = Fin 0) ->
  (xlt (Fin 0) s = true <-> xlt (Fin b) (Fin a) = true) /\ (xlt s (Fin 0) = true <-> xlt (Fin a) (Fin b) = true) /\ (s = Fin 0 /\ s <> XNaN <-> Fin a = Fin b /\ Fin a <> XNaN).
Proof.
  intros H1 H2 H3. assert (E : Fin a = Fin b <-> a = b) by (split; [intros Q; injection Q; auto | intros ->; reflexivity]). rewrite !xlt_fin, E.
  assert (X : xlt (Fin 0) s = true -> xlt s (Fin 0) = true -> False) by (destruct s; try discriminate; rewrite !xlt_fin; lra).
  assert (X0 : s = Fin 0 -> xlt (Fin 0) s = true \/ xlt s (Fin 0) = true -> False) by (intros ->; rewrite !xlt_fin; lra).
  assert (T : a < b \/ a = b \/ b < a) by lra.
  destruct T as [T|[T|T]]; [specialize (H1 T) | specialize (H3 T) | specialize (H2 T)]; (assert (Fin a <> XNaN) by discriminate); (repeat split); try (intros C); try lra; try tauto; try (intros D; subst s; discriminate); try (destruct s; discriminate); try (destruct C as [C _]; exfalso; first [lra | tauto]).
Qed.
Lemma sub_sign x y : Finite x -> Finite y -> (Lt szero (ssub x y) <-> Lt y x) /\ (Lt (ssub x y) szero <-> Lt x y) /\ (Eqs (ssub x y) szero <-> Eqs x y).
Proof.
  intros Fx Fy. pose proof (Finite_real x Fx) as Ex. pose proof (Finite_real y Fy) as Ey. rewrite !Lt_tx, !Eqs_tx, tx_0.
  pose proof (sub_pos x y _ Ey) as P. pose proof (sub_neg x y _ Ey) as N.
  assert (Z : tx x = tx y -> tx (ssub x y) = Fin 0).
  { intros E. rewrite tx_sub, E, Ey. cbn [xsub xneg xadd]. replace (real_of y + - real_of y) with 0 by ring. apply xr_0. }
  rewrite Ex, Ey in *. set (a := real_of x) in *. set (b := real_of y) in *.
  apply sgn3.
  - intros T. apply N. now apply xlt_fin.
  - intros T. apply P. now apply xlt_fin.
  - intros ->. now apply Z.
Qed.
Lemma Nearby_sym x y : Nearby x y -> Nearby y x.
Proof. unfold Nearby. intros [H|H]; [left | right]; lra. Qed.
End N.
Lemma C97_nearby_difference_2d_pf : forall (A : arith) (p q : Point2 (num A)), Finite2 p -> Finite2 q -> PNearby2 p q ->
  (forall d, Finite (vcoord2 (p2_sub q p) d) /\ real_of (vcoord2 (p2_sub q p) d) = real_of (coord2 q d) - real_of (coord2 p d)) /\
  PEq2 (p2_add p (p2_sub q p)) q /\ PEq2 (p2_sub_v q (p2_sub q p)) p.
Proof.
  intros A p q Fp Fq N. assert (N' : forall d, Nearby (coord2 q d) (coord2 p d)) by (intros d; apply Nearby_sym, N). split; [|split]; intros d.
  - pose proof (near_sub _ _ (Fq d) (Fp d) (N' d)) as H. destruct d; exact H.
  - pose proof (proj1 (near_back _ _ (Fq d) (Fp d) (N' d))) as H. destruct d; exact H.
  - pose proof (proj2 (near_back _ _ (Fq d) (Fp d) (N' d))) as H. destruct d; exact H.
Qed.
Lemma C97_nearby_difference_3d_pf : forall (A : arith) (p q : Point3 (num A)), Finite3 p -> Finite3 q -> PNearby3 p q ->
  (forall d, Finite (vcoord3 (p3_sub q p) d) /\ real_of (vcoord3 (p3_sub q p) d) = real_of (coord3 q d) - real_of (coord3 p d)) /\
  PEq3 (p3_add p (p3_sub q p)) q /\ PEq3 (p3_sub_v q (p3_sub q p)) p.
Proof.
  intros A p q Fp Fq N. assert (N' : forall d, Nearby (coord3 q d) (coord3 p d)) by (intros d; apply Nearby_sym, N). split; [|split]; intros d.
  - pose proof (near_sub _ _ (Fq d) (Fp d) (N' d)) as H. destruct d; exact H.
  - pose proof (proj1 (near_back _ _ (Fq d) (Fp d) (N' d))) as H. destruct d; exact H.
  - pose proof (proj2 (near_back _ _ (Fq d) (Fp d) (N' d))) as H. destruct d; exact H.
Qed.
Lemma C97_ray_through_2d_pf : forall (A : arith) (p q : Point2 (num A)), Finite2 p -> Finite2 q -> PNearby2 p q -> PEq2 (r2_at (r2_new p (p2_sub q p)) sone) q.
Proof.
  intros A p q Fp Fq N d. pose proof (proj1 (near_back _ _ (Fq d) (Fp d) (Nearby_sym _ _ (N d)))) as H. apply Eqs_tx in H. apply Eqs_tx.
  enough (Q : tx (coord2 (r2_at (r2_new p (p2_sub q p)) sone) d) = tx (sadd (coord2 p d) (ssub (coord2 q d) (coord2 p d)))) by (rewrite Q; exact H).
  destruct d; cbn; rewrite (tx_add _ (smul _ _)), tx_mul_1r, <- tx_add; reflexivity.
Qed.
Lemma C97_ray_through_3d_pf : forall (A : arith) (p q : Point3 (num A)), Finite3 p -> Finite3 q -> PNearby3 p q -> PEq3 (r3_at (r3_new p (p3_sub q p)) sone) q.
Proof.
  intros A p q Fp Fq N d. pose proof (proj1 (near_back _ _ (Fq d) (Fp d) (Nearby_sym _ _ (N d)))) as H. apply Eqs_tx in H. apply Eqs_tx.
  enough (Q : tx (coord3 (r3_at (r3_new p (p3_sub q p)) sone) d) = tx (sadd (coord3 p d) (ssub (coord3 q d) (coord3 p d)))) by (rewrite Q; exact H).
  destruct d; cbn; rewrite (tx_add _ (smul _ _)), tx_mul_1r, <- tx_add; reflexivity.
Qed.
Lemma C97_nearby_distance_2d_pf : forall (A : arith) (p q : Point2 (num A)), Finite2 p -> Finite2 q -> PNearby2 p q -> let w := p2_sub q p in
  Finite (v2_dot w w) -> min_subnormal A <= unit_roundoff A * real_of (v2_dot w w) ->
  Rabs (real_of (p2_distance p q) - Rdist2 (RP2 q) (RP2 p)) <= 5 * unit_roundoff A * Rdist2 (RP2 q) (RP2 p).
Proof.
  intros A p q Fp Fq N w F T. destruct (C55_length_accurate_2d_pf A w F T) as [_ E]. 
  assert (Q : Rdist2 (RP2 q) (RP2 p) = Rnorm2 (RV2 w)).
  { unfold Rdist2, Rnorm2. destruct (C97_nearby_difference_2d_pf A p q Fp Fq N) as [H _]. pose proof (proj2 (H D2X)) as HX. pose proof (proj2 (H D2Y)) as HY. cbn in *. f_equal. unfold w. try rewrite HX. try rewrite HY. reflexivity. }
  rewrite Q. exact E.
Qed.
Lemma C97_nearby_distance_3d_pf : forall (A : arith) (p q : Point3 (num A)), Finite3 p -> Finite3 q -> PNearby3 p q -> let w := p3_sub q p in
  Finite (v3_dot w w) -> min_subnormal A <= unit_roundoff A * real_of (v3_dot w w) ->
  Rabs (real_of (p3_distance p q) - Rdist3 (RP3 q) (RP3 p)) <= 5 * unit_roundoff A * Rdist3 (RP3 q) (RP3 p).
Proof.
  intros A p q Fp Fq N w F T. destruct (C55_length_accurate_3d_pf A w F T) as [_ E]. 
  assert (Q : Rdist3 (RP3 q) (RP3 p) = Rnorm3 (RV3 w)).
  { unfold Rdist3, Rnorm3. destruct (C97_nearby_difference_3d_pf A p q Fp Fq N) as [H _]. pose proof (proj2 (H D3X)) as HX. pose proof (proj2 (H D3Y)) as HY. pose proof (proj2 (H D3Z)) as HZ. cbn in *. f_equal. unfold w. try rewrite HX. try rewrite HY. try rewrite HZ. reflexivity. }
  rewrite Q. exact E.
Qed.
Lemma C97_difference_sign_2d_pf : forall (A : arith) (p q : Point2 (num A)) (d : Dimension2), Finite2 p -> Finite2 q ->
  (Lt szero (vcoord2 (p2_sub q p) d) <-> Lt (coord2 p d) (coord2 q d)) /\ (Lt (vcoord2 (p2_sub q p) d) szero <-> Lt (coord2 q d) (coord2 p d)) /\
  (Eqs (vcoord2 (p2_sub q p) d) szero <-> Eqs (coord2 q d) (coord2 p d)).
Proof.
  intros A p q d Fp Fq. pose proof (sub_sign _ _ (Fq d) (Fp d)) as H. destruct d; exact H.
Qed.
Lemma C97_difference_sign_3d_pf : forall (A : arith) (p q : Point3 (num A)) (d : Dimension3), Finite3 p -> Finite3 q ->
  (Lt szero (vcoord3 (p3_sub q p) d) <-> Lt (coord3 p d) (coord3 q d)) /\ (Lt (vcoord3 (p3_sub q p) d) szero <-> Lt (coord3 q d) (coord3 p d)) /\
  (Eqs (vcoord3 (p3_sub q p) d) szero <-> Eqs (coord3 q d) (coord3 p d)).
Proof.
  intros A p q d Fp Fq. pose proof (sub_sign _ _ (Fq d) (Fp d)) as H. destruct d; exact H.
Qed.
Lemma C97_way_back_error_2d_pf : forall (A : arith) (p q : Point2 (num A)) (d : Dimension2), Finite (coord2 (p2_add p (p2_sub q p)) d) ->
  let u := unit_roundoff A in let x := real_of (coord2 q d) in let y := real_of (coord2 p d) in
  Rabs (real_of (coord2 (p2_add p (p2_sub q p)) d) - x) <= u * (Rabs x + (1 + u) * Rabs (x - y)).
Proof.
  intros A p q d F. destruct d; exact (back_err _ _ F).
Qed.
Lemma C97_way_back_error_3d_pf : forall (A : arith) (p q : Point3 (num A)) (d : Dimension3), Finite (coord3 (p3_add p (p3_sub q p)) d) ->
  let u := unit_roundoff A in let x := real_of (coord3 q d) in let y := real_of (coord3 p d) in
  Rabs (real_of (coord3 (p3_add p (p3_sub q p)) d) - x) <= u * (Rabs x + (1 + u) * Rabs (x - y)).
Proof.
  intros A p q d F. destruct d; exact (back_err _ _ F).
Qed.
