(** Proofs: points in the cells of a uniform grid (C114). *)
From Coq Require Import Bool NArith ZArith Reals List Lra Lia.
From Flocq Require Import Core.Zaux Core.Raux Core.Generic_fmt Core.Round_NE.
From Verif Require Import Scalar Types Vector2 Vector3 Point2 Point3 Ray BoundingBox2 BoundingBox3 Float
  XReal OrdLaws Arith SpecOrder SpecFloat SpecErr SpecReal SpecSnap SpecHash OrderProofs OrderBox FloatX XArith FloatLaws SlabBase FloatSign FloatSym FloatClip ExVals ExactBase ErrBase FloatKey FloatGrid FloatOct FloatSnap.
Import ListNotations.
Local Open Scope R_scope.
Section A.
Context {A : arith}.
Implicit Types x y z h : num A.
Lemma spacing_tx h : Spacing h -> exists r, tx h = Fin r /\ 0 < r /\ r = real_of h.
Proof. intros [F P]. exists (real_of h). now rewrite (Finite_real h F). Qed.
Lemma tx_key h x : Spacing h -> tx (sfloor (sdiv x h)) = xint Zfloor (xr A (xdiv (tx x) (tx h))).
Proof. intros H. destruct (spacing_tx h H) as (r & E & P & _). rewrite tx_floor, tx_div; [reflexivity|]. rewrite E. intros Q. injection Q. lra. Qed.
Lemma key_mono h x y : Spacing h -> Le x y -> Le (sfloor (sdiv x h)) (sfloor (sdiv y h)).
Proof.
  intros H L. destruct (spacing_tx h H) as (r & E & P & _). apply Le_tx. rewrite !tx_key by assumption. apply xint_mono; [intros; now apply Zfloor_le|]. apply xr_mono. rewrite E. apply xdiv_mono_pos; [assumption|]. now apply Le_tx.
Qed.
Lemma key_Integral h x : Spacing h -> NoNaN x -> Integral (sfloor (sdiv x h)).
Proof.
  intros H N. destruct (spacing_tx h H) as (r & E & P & _). apply (xint_Integral Zfloor (sdiv x h)); [|apply tx_floor]. apply NoNaN_tx. apply NoNaN_tx in N. rewrite tx_div by (rewrite E; intros Q; injection Q; lra). rewrite xr_nan, E.
  destruct (tx x) as [a| | |]; cbn [xdiv xnan] in *; try easy; [destruct (Req_bool_spec r 0); [lra|reflexivity] | destruct (Rlt_bool r 0); reflexivity | destruct (Rlt_bool r 0); reflexivity].
Qed.
Lemma xr_int n : (Z.abs n <= 2 ^ 22 + 2)%Z -> xr A (Fin (IZR n)) = Fin (IZR n).
Proof.
  destruct A as [f P|]; [|reflexivity]. intros H. assert (Q := grid_fix (P:=P) n 0). cbn [bpow] in Q. rewrite Rmult_1_r in Q. apply Q; [|lia]. destruct f; cbn [prec]; lia.
Qed.
Lemma key_val h x : Spacing h -> Finite x -> Rabs (real_of x) <= bpow radix2 22 * real_of h ->
  exists s : R, xr A (Fin (real_of x / real_of h)) = Fin s /\ Rabs (real_of x / real_of h) <= IZR (2 ^ 22) /\ tx (sfloor (sdiv x h)) = Fin (IZR (Zfloor s)) /\ (- 2 ^ 22 <= Zfloor s <= 2 ^ 22)%Z /\ IZR (Zfloor s) - 1 < real_of x / real_of h < IZR (Zfloor s) + 1.
Proof.
  intros H F B. destruct (spacing_tx h H) as (r & E & P & Er). rewrite <- Er in *. set (a := real_of x / r).
  assert (Ba : Rabs a <= IZR (2 ^ 22)). { unfold a, Rdiv. rewrite Rabs_mult, (Rabs_pos_eq (/ r)) by (left; now apply Rinv_0_lt_compat). apply (Rmult_le_reg_r r); [assumption|]. rewrite Rmult_assoc, Rinv_l, Rmult_1_r by lra. exact B. }
  assert (T : xdiv (tx x) (tx h) = Fin a). { rewrite (Finite_real x F), E, xdiv_fin by lra. reflexivity. }
  rewrite tx_key, T by assumption. pose proof Ba as Ba'. apply Rabs_le_inv in Ba. rewrite <- opp_IZR in Ba. destruct Ba as [Ba1 Ba2].
  assert (Z1 : (- 2 ^ 22 <= Zfloor a)%Z) by now apply Zfloor_lub. assert (Z2 : (Zceil a <= 2 ^ 22)%Z) by now apply Zceil_glb.
  assert (Z3 : (Zfloor a <= Zceil a)%Z) by (pose proof (trunc_between a); lia).
  assert (M1 : xle (Fin (IZR (Zfloor a))) (xr A (Fin a)) = true). { rewrite <- (xr_int (Zfloor a)) by lia. apply xr_mono, xle_fin, Zfloor_lb. }
  assert (M2 : xle (xr A (Fin a)) (Fin (IZR (Zceil a))) = true). { rewrite <- (xr_int (Zceil a)) by lia. apply xr_mono, xle_fin, Zceil_ub. }
  destruct (xr A (Fin a)) as [s| | |] eqn:ES; try discriminate. rewrite xle_fin in M1, M2. exists s. split; [reflexivity|]. split; [exact Ba'|]. split; [reflexivity|].
  assert (K1 : (Zfloor a <= Zfloor s)%Z) by now apply Zfloor_lub. assert (K2 : (Zfloor s <= Zceil a)%Z) by (apply le_IZR; apply Rle_trans with s; [apply Zfloor_lb | assumption]).
  split; [lia|]. apply IZR_le in K1, K2. pose proof (Zfloor_ub a). pose proof (Zceil_lb a). lra.
Qed.
(* at most one spacing further, at most one cell further *)
Lemma key_step h x y s t : Spacing h -> Finite x -> Finite y -> Rabs (real_of x / real_of h) <= IZR (2 ^ 22) -> Rabs (real_of y / real_of h) <= IZR (2 ^ 22) -> xr A (Fin (real_of x / real_of h)) = Fin s -> xr A (Fin (real_of y / real_of h)) = Fin t ->
  (- 2 ^ 22 <= Zfloor t <= 2 ^ 22)%Z -> real_of x - real_of y <= real_of h -> (Zfloor s <= Zfloor t + 1)%Z.
Proof.
  intros [Fh Ph] Fx Fy Bx By Es Et Kt D. apply xr_fin_inv in Es, Et. assert (G : s < IZR (Zfloor t + 1 + 1)).
  { assert (T : t < IZR (Zfloor t + 1)) by (rewrite plus_IZR; apply Zfloor_ub). subst s t. destruct A as [f P|].
    - apply (step f (real_of h) (real_of x) (real_of y)); first [apply repr_B2R | assumption | lia].
    - cbn [arnd] in *. apply (Rplus_lt_compat_r 1) in T. rewrite plus_IZR. apply Rle_lt_trans with (2 := T). apply (Rmult_le_reg_r (real_of h)); [assumption|]. unfold Rdiv. rewrite Rmult_plus_distr_r, !Rmult_assoc, Rinv_l by lra. lra. }
  assert (Zfloor s < Zfloor t + 1 + 1)%Z; [|lia]. apply lt_IZR. apply Rle_lt_trans with (2 := G). apply Zfloor_lb.
Qed.
End A.
Lemma key_val_exact (h x : num EXACT) : Spacing h -> Finite x -> exists k : Z, tx (sfloor (sdiv x h)) = Fin (IZR k) /\ IZR k <= real_of x / real_of h < IZR k + 1.
Proof.
  intros H F. destruct (spacing_tx h H) as (r & E & P & Er). exists (Zfloor (real_of x / r)). rewrite (tx_key (A:=EXACT) h x H). rewrite (Finite_real x F), E, xdiv_fin by lra. rewrite <- Er. split; [reflexivity|]. split; [apply Zfloor_lb | apply Zfloor_ub].
Qed.
Lemma div_diff a b r : 0 < r -> a / r - b / r = (a - b) / r.
Proof. intros. unfold Rdiv. ring. Qed.
Lemma div_le1 a r : 0 < r -> Rabs a <= r -> -1 <= a / r <= 1.
Proof. intros P H. apply Rabs_le_inv in H. split; apply (Rmult_le_reg_r r); try assumption; unfold Rdiv; rewrite Rmult_assoc, Rinv_l by lra; lra. Qed.
Lemma div_lt_back a r m : 0 < r -> - m < a / r < m -> Rabs a < m * r.
Proof. intros P [H1 H2]. assert (E : a = a / r * r) by (field; lra). rewrite E. apply Rabs_def1; [now apply Rmult_lt_compat_r|]. rewrite Ropp_mult_distr_l. now apply Rmult_lt_compat_r. Qed.
Lemma key2_coord {A : arith} (h : num A) p d : coord2 (key2 h p) d = sfloor (sdiv (coord2 p d) h).
Proof. destruct d; reflexivity. Qed.
Lemma cells2_coord {A : arith} (h : num A) (b : BoundingBox2 (num A)) d : Spacing h -> Ordered2 b -> tx (coord2 (bb2_min (cells2 h b)) d) = tx (coord2 (key2 h (bb2_min b)) d) /\ tx (coord2 (bb2_max (cells2 h b)) d) = tx (coord2 (key2 h (bb2_max b)) d).
Proof.
  intros H O. pose proof (key_mono h _ _ H (O d)) as K. apply Le_tx in K.
  assert (E : tx (s_min (sfloor (sdiv (coord2 (bb2_min b) d) h)) (sfloor (sdiv (coord2 (bb2_max b) d) h))) = tx (sfloor (sdiv (coord2 (bb2_min b) d) h)) /\ tx (s_max (sfloor (sdiv (coord2 (bb2_min b) d) h)) (sfloor (sdiv (coord2 (bb2_max b) d) h))) = tx (sfloor (sdiv (coord2 (bb2_max b) d) h))) by (rewrite tx_smin, tx_smax; split; [now apply xmin_l | now apply xmax_r]).
  destruct d; exact E.
Qed.
Lemma key3_coord {A : arith} (h : num A) p d : coord3 (key3 h p) d = sfloor (sdiv (coord3 p d) h).
Proof. destruct d; reflexivity. Qed.
Lemma cells3_coord {A : arith} (h : num A) (b : BoundingBox3 (num A)) d : Spacing h -> Ordered3 b -> tx (coord3 (bb3_min (cells3 h b)) d) = tx (coord3 (key3 h (bb3_min b)) d) /\ tx (coord3 (bb3_max (cells3 h b)) d) = tx (coord3 (key3 h (bb3_max b)) d).
Proof.
  intros H O. pose proof (key_mono h _ _ H (O d)) as K. apply Le_tx in K.
  assert (E : tx (s_min (sfloor (sdiv (coord3 (bb3_min b) d) h)) (sfloor (sdiv (coord3 (bb3_max b) d) h))) = tx (sfloor (sdiv (coord3 (bb3_min b) d) h)) /\ tx (s_max (sfloor (sdiv (coord3 (bb3_min b) d) h)) (sfloor (sdiv (coord3 (bb3_max b) d) h))) = tx (sfloor (sdiv (coord3 (bb3_max b) d) h))) by (rewrite tx_smin, tx_smax; split; [now apply xmin_l | now apply xmax_r]).
  destruct d; exact E.
Qed.
Lemma C114_cell_of_point_2d_pf : forall (A : arith) (h : num A) (b : BoundingBox2 (num A)) (p : Point2 (num A)), Spacing h -> bb2_is_inside b p = true ->
  bb2_is_inside (cells2 h b) (key2 h p) = true /\ Integral2 (key2 h p).
Proof.
  intros A h b p H I. apply bb2_is_inside_iff in I. pose proof (num_OrdLaws A) as L. assert (O : Ordered2 b) by exact (In2_Ordered L p b I). destruct I as [I1 I2]. split.
  - apply bb2_is_inside_iff. split; intros d; destruct (cells2_coord h b d H O) as [E1 E2]; apply Le_tx; rewrite ?E1, ?E2, !key2_coord; apply Le_tx, (key_mono h _ _ H); [apply I1 | apply I2].
  - intros d. rewrite key2_coord. apply (key_Integral h _ H). specialize (I1 d). apply Le_tx in I1. apply NoNaN_tx. destruct (tx (coord2 p d)), (tx (coord2 (bb2_min b) d)); first [reflexivity | discriminate I1].
Qed.
Lemma C114_cell_of_point_3d_pf : forall (A : arith) (h : num A) (b : BoundingBox3 (num A)) (p : Point3 (num A)), Spacing h -> bb3_is_inside b p = true ->
  bb3_is_inside (cells3 h b) (key3 h p) = true /\ Integral3 (key3 h p).
Proof.
  intros A h b p H I. apply bb3_is_inside_iff in I. pose proof (num_OrdLaws A) as L. assert (O : Ordered3 b) by exact (In3_Ordered L p b I). destruct I as [I1 I2]. split.
  - apply bb3_is_inside_iff. split; intros d; destruct (cells3_coord h b d H O) as [E1 E2]; apply Le_tx; rewrite ?E1, ?E2, !key3_coord; apply Le_tx, (key_mono h _ _ H); [apply I1 | apply I2].
  - intros d. rewrite key3_coord. apply (key_Integral h _ H). specialize (I1 d). apply Le_tx in I1. apply NoNaN_tx. destruct (tx (coord3 p d)), (tx (coord3 (bb3_min b) d)); first [reflexivity | discriminate I1].
Qed.
Lemma C114_cells_of_box_2d_pf : forall (A : arith) (h : num A) (a b : BoundingBox2 (num A)), Spacing h -> Ordered2 a -> Ordered2 b ->
  Ordered2 (cells2 h a) /\ IntBox2 (cells2 h a) /\ (Incl2 a b -> Incl2 (cells2 h a) (cells2 h b)) /\ (bb2_overlaps a b = true -> bb2_overlaps (cells2 h a) (cells2 h b) = true).
Proof.
  intros A h a b H Oa Ob. pose proof (num_OrdLaws A) as L.
  assert (OC : forall c, Ordered2 c -> Ordered2 (cells2 h c)). { intros c Oc d. destruct (cells2_coord h c d H Oc) as [E1 E2]. apply Le_tx. rewrite E1, E2, !key2_coord. apply Le_tx, (key_mono h _ _ H), Oc. }
  split; [now apply OC|]. split; [|split].
  - destruct (Ordered2_NoNaN L a Oa) as [N1 N2]. split; intros d; destruct (cells2_coord h a d H Oa) as [E1 E2].
    + apply (Integral_tx _ _ (eq_sym E1)). rewrite key2_coord. apply (key_Integral h _ H), N1.
    + apply (Integral_tx _ _ (eq_sym E2)). rewrite key2_coord. apply (key_Integral h _ H), N2.
  - intros I. apply (Incl2_iff L) in I; [|assumption]. apply (Incl2_iff L); [now apply OC|]. destruct I as [I1 I2].
    split; intros d; destruct (cells2_coord h a d H Oa) as [E1 E2], (cells2_coord h b d H Ob) as [F1 F2]; apply Le_tx; rewrite ?E1, ?E2, ?F1, ?F2, !key2_coord; apply Le_tx, (key_mono h _ _ H); [apply I1 | apply I2].
  - intros V. apply (bb2_overlaps_iff L) in V; [|assumption..]. destruct V as (p & P1 & P2). apply (bb2_overlaps_iff L); [now apply OC..|]. exists (key2 h p). split; apply bb2_is_inside_iff; apply (C114_cell_of_point_2d_pf A h _ p H); now apply bb2_is_inside_iff.
Qed.
Lemma C114_cells_of_box_3d_pf : forall (A : arith) (h : num A) (a b : BoundingBox3 (num A)), Spacing h -> Ordered3 a -> Ordered3 b ->
  Ordered3 (cells3 h a) /\ IntBox3 (cells3 h a) /\ (Incl3 a b -> Incl3 (cells3 h a) (cells3 h b)) /\ (bb3_overlaps a b = true -> bb3_overlaps (cells3 h a) (cells3 h b) = true).
Proof.
  intros A h a b H Oa Ob. pose proof (num_OrdLaws A) as L.
  assert (OC : forall c, Ordered3 c -> Ordered3 (cells3 h c)). { intros c Oc d. destruct (cells3_coord h c d H Oc) as [E1 E2]. apply Le_tx. rewrite E1, E2, !key3_coord. apply Le_tx, (key_mono h _ _ H), Oc. }
  split; [now apply OC|]. split; [|split].
  - destruct (Ordered3_NoNaN L a Oa) as [N1 N2]. split; intros d; destruct (cells3_coord h a d H Oa) as [E1 E2].
    + apply (Integral_tx _ _ (eq_sym E1)). rewrite key3_coord. apply (key_Integral h _ H), N1.
    + apply (Integral_tx _ _ (eq_sym E2)). rewrite key3_coord. apply (key_Integral h _ H), N2.
  - intros I. apply (Incl3_iff L) in I; [|assumption]. apply (Incl3_iff L); [now apply OC|]. destruct I as [I1 I2].
    split; intros d; destruct (cells3_coord h a d H Oa) as [E1 E2], (cells3_coord h b d H Ob) as [F1 F2]; apply Le_tx; rewrite ?E1, ?E2, ?F1, ?F2, !key3_coord; apply Le_tx, (key_mono h _ _ H); [apply I1 | apply I2].
  - intros V. apply (bb3_overlaps_iff L) in V; [|assumption..]. destruct V as (p & P1 & P2). apply (bb3_overlaps_iff L); [now apply OC..|]. exists (key3 h p). split; apply bb3_is_inside_iff; apply (C114_cell_of_point_3d_pf A h _ p H); now apply bb3_is_inside_iff.
Qed.
Lemma C114_box_query_2d_pf : forall (A : arith) (h : num A) (b : BoundingBox2 (num A)) (l : list (Point2 (num A))), Spacing h -> grid_query2 h b l = filter (bb2_is_inside b) l.
Proof.
  intros A h b l H. unfold grid_query2. induction l as [|p r IH]; [reflexivity|]. cbn [filter]. destruct (bb2_is_inside b p) eqn:E.
  - rewrite (proj1 (C114_cell_of_point_2d_pf A h b p H E)). cbn [filter]. now rewrite E, IH.
  - destruct (bb2_is_inside (cells2 h b) (key2 h p)); cbn [filter]; rewrite ?E; exact IH.
Qed.
Lemma C114_box_query_3d_pf : forall (A : arith) (h : num A) (b : BoundingBox3 (num A)) (l : list (Point3 (num A))), Spacing h -> grid_query3 h b l = filter (bb3_is_inside b) l.
Proof.
  intros A h b l H. unfold grid_query3. induction l as [|p r IH]; [reflexivity|]. cbn [filter]. destruct (bb3_is_inside b p) eqn:E.
  - rewrite (proj1 (C114_cell_of_point_3d_pf A h b p H E)). cbn [filter]. now rewrite E, IH.
  - destruct (bb3_is_inside (cells3 h b) (key3 h p)); cbn [filter]; rewrite ?E; exact IH.
Qed.
Lemma C114_neighbours_2d_pf : forall (A : arith) (h : num A) (p q : Point2 (num A)) (d : Dimension2), Spacing h -> Finite2 p -> Finite2 q ->
  Rabs (real_of (coord2 p d)) <= 2 ^ 22 * real_of h -> Rabs (real_of (coord2 q d)) <= 2 ^ 22 * real_of h ->
  let x := coord2 (key2 h p) d in let y := coord2 (key2 h q) d in Finite x /\ Finite y /\
  (Rabs (real_of (coord2 p d) - real_of (coord2 q d)) <= real_of h -> Rabs (real_of x - real_of y) <= 1) /\
  (real_of x = real_of y -> Rabs (real_of (coord2 p d) - real_of (coord2 q d)) < 2 * real_of h).
Proof.
  intros A h p q d H Fp Fq Bp Bq. cbv zeta. rewrite !key2_coord. assert (E22 : 2 ^ 22 = bpow radix2 22) by (cbn; lra). rewrite E22 in Bp, Bq.
  destruct (key_val h _ H (Fp d) Bp) as (s & Es & Bs & Ek & Zk & Kk), (key_val h _ H (Fq d) Bq) as (t & Et & Bt & Em & Zm & Km).
  destruct (real_of_fin _ _ Ek) as [F1 ->], (real_of_fin _ _ Em) as [F2 ->]. split; [exact F1|]. split; [exact F2|]. pose proof (proj2 H) as P. pose proof (div_diff (real_of (coord2 p d)) (real_of (coord2 q d)) _ P) as D. split.
  - intros G. apply Rabs_le_inv in G. pose proof (key_step h _ _ s t H (Fp d) (Fq d) Bs Bt Es Et Zm ltac:(lra)) as S1. pose proof (key_step h _ _ t s H (Fq d) (Fp d) Bt Bs Et Es Zk ltac:(lra)) as S2. rewrite <- minus_IZR, <- abs_IZR. apply IZR_le. lia.
  - intros G. apply (div_lt_back _ _ _ P). rewrite <- D. lra.
Qed.
Lemma C114_neighbours_3d_pf : forall (A : arith) (h : num A) (p q : Point3 (num A)) (d : Dimension3), Spacing h -> Finite3 p -> Finite3 q ->
  Rabs (real_of (coord3 p d)) <= 2 ^ 22 * real_of h -> Rabs (real_of (coord3 q d)) <= 2 ^ 22 * real_of h ->
  let x := coord3 (key3 h p) d in let y := coord3 (key3 h q) d in Finite x /\ Finite y /\
  (Rabs (real_of (coord3 p d) - real_of (coord3 q d)) <= real_of h -> Rabs (real_of x - real_of y) <= 1) /\
  (real_of x = real_of y -> Rabs (real_of (coord3 p d) - real_of (coord3 q d)) < 2 * real_of h).
Proof.
  intros A h p q d H Fp Fq Bp Bq. cbv zeta. rewrite !key3_coord. assert (E22 : 2 ^ 22 = bpow radix2 22) by (cbn; lra). rewrite E22 in Bp, Bq.
  destruct (key_val h _ H (Fp d) Bp) as (s & Es & Bs & Ek & Zk & Kk), (key_val h _ H (Fq d) Bq) as (t & Et & Bt & Em & Zm & Km).
  destruct (real_of_fin _ _ Ek) as [F1 ->], (real_of_fin _ _ Em) as [F2 ->]. split; [exact F1|]. split; [exact F2|]. pose proof (proj2 H) as P. pose proof (div_diff (real_of (coord3 p d)) (real_of (coord3 q d)) _ P) as D. split.
  - intros G. apply Rabs_le_inv in G. pose proof (key_step h _ _ s t H (Fp d) (Fq d) Bs Bt Es Et Zm ltac:(lra)) as S1. pose proof (key_step h _ _ t s H (Fq d) (Fp d) Bt Bs Et Es Zk ltac:(lra)) as S2. rewrite <- minus_IZR, <- abs_IZR. apply IZR_le. lia.
  - intros G. apply (div_lt_back _ _ _ P). rewrite <- D. lra.
Qed.
Lemma C114_neighbours_exact_2d_pf : forall (h : num EXACT) (p q : Point2 (num EXACT)) (d : Dimension2), Spacing h -> Finite2 p -> Finite2 q ->
  let x := coord2 (key2 h p) d in let y := coord2 (key2 h q) d in Finite x /\ Finite y /\
  (Rabs (real_of (coord2 p d) - real_of (coord2 q d)) <= real_of h -> Rabs (real_of x - real_of y) <= 1) /\
  (real_of x = real_of y -> Rabs (real_of (coord2 p d) - real_of (coord2 q d)) < real_of h).
Proof.
  intros h p q d H Fp Fq. cbv zeta. rewrite !key2_coord.
  destruct (key_val_exact h _ H (Fp d)) as (k & Ek & Kk), (key_val_exact h _ H (Fq d)) as (m & Em & Km).
  destruct (real_of_fin _ _ Ek) as [F1 ->], (real_of_fin _ _ Em) as [F2 ->]. split; [exact F1|]. split; [exact F2|]. pose proof (proj2 H) as P. pose proof (div_diff (real_of (coord2 p d)) (real_of (coord2 q d)) _ P) as D. split.
  - intros G. apply (div_le1 _ _ P) in G. rewrite <- D in G. rewrite <- minus_IZR, <- abs_IZR. apply IZR_le. assert (V : (-2 < k - m < 2)%Z) by (split; apply lt_IZR; rewrite minus_IZR; lra). lia.
  - intros G. rewrite <- (Rmult_1_l (real_of h)). apply (div_lt_back _ _ _ P). rewrite <- D. lra.
Qed.
Lemma C114_neighbours_exact_3d_pf : forall (h : num EXACT) (p q : Point3 (num EXACT)) (d : Dimension3), Spacing h -> Finite3 p -> Finite3 q ->
  let x := coord3 (key3 h p) d in let y := coord3 (key3 h q) d in Finite x /\ Finite y /\
  (Rabs (real_of (coord3 p d) - real_of (coord3 q d)) <= real_of h -> Rabs (real_of x - real_of y) <= 1) /\
  (real_of x = real_of y -> Rabs (real_of (coord3 p d) - real_of (coord3 q d)) < real_of h).
Proof.
  intros h p q d H Fp Fq. cbv zeta. rewrite !key3_coord.
  destruct (key_val_exact h _ H (Fp d)) as (k & Ek & Kk), (key_val_exact h _ H (Fq d)) as (m & Em & Km).
  destruct (real_of_fin _ _ Ek) as [F1 ->], (real_of_fin _ _ Em) as [F2 ->]. split; [exact F1|]. split; [exact F2|]. pose proof (proj2 H) as P. pose proof (div_diff (real_of (coord3 p d)) (real_of (coord3 q d)) _ P) as D. split.
  - intros G. apply (div_le1 _ _ P) in G. rewrite <- D in G. rewrite <- minus_IZR, <- abs_IZR. apply IZR_le. assert (V : (-2 < k - m < 2)%Z) by (split; apply lt_IZR; rewrite minus_IZR; lra). lia.
  - intros G. rewrite <- (Rmult_1_l (real_of h)). apply (div_lt_back _ _ _ P). rewrite <- D. lra.
Qed.
