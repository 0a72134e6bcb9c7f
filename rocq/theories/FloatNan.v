(** Proofs: where NaN goes and where it comes from (C90). *)
From Coq Require Import Bool NArith ZArith Reals List Lra Lia.
From Flocq Require Import Core.Zaux Core.Raux IEEE754.BinarySingleNaN.
From Verif Require Import Scalar Types Vector2 Vector3 Point2 Point3 Ray BoundingBox2 BoundingBox3 Transform2 Transform3 Adj4 Float
  XReal OrdLaws Arith SpecOrder SpecFloat SpecReal SpecNan OrderProofs FloatX XArith FloatLaws ErrBase FloatErr FloatInv FloatTrans FloatAxis ExVals ExactBase.
Import ListNotations.
Section A.
Context {A : arith}.
Implicit Types x y : num A.
Lemma NaN_tx x : NaN x <-> tx x = XNaN.
Proof. unfold NaN. rewrite tx_nan. destruct (tx x); cbn; split; congruence. Qed.
Lemma nan_add x y : NaN x \/ NaN y -> NaN (sadd x y).
Proof. rewrite !NaN_tx, tx_add. intros [->| ->]; [|destruct (tx x)]; cbn [xadd]; apply xr_xnan. Qed.
Lemma nan_sub x y : NaN x \/ NaN y -> NaN (ssub x y).
Proof. rewrite !NaN_tx, tx_sub. intros [->| ->]; [|destruct (tx x)]; cbn; apply xr_xnan. Qed.
Lemma nan_mul x y : NaN x \/ NaN y -> NaN (smul x y).
Proof. rewrite !NaN_tx, tx_mul. intros [->| ->]; [|destruct (tx x)]; cbn [xmul]; apply xr_xnan. Qed.
Lemma nan_div x y : NaN x \/ NaN y -> NaN (sdiv x y).
Proof.
  unfold NaN. destruct A as [f P|]; cbn.
  - intros [H|H]; [destruct x; try discriminate; reflexivity | destruct y; try discriminate; destruct x; reflexivity].
  - intros [H|H]; [destruct x; try discriminate; reflexivity | destruct y; try discriminate; destruct x; reflexivity].
Qed.
Lemma nan_sqrt x : NaN x -> NaN (ssqrt x).
Proof. rewrite !NaN_tx, tx_sqrt. intros ->. apply xr_xnan. Qed.
Lemma nan_neg x : NaN x -> NaN (sneg x).
Proof. rewrite !NaN_tx, tx_neg. intros ->. reflexivity. Qed.
Lemma nan_or x : NaN x \/ NoNaN x.
Proof. unfold NaN, NoNaN. destruct (snan x); auto. Qed.
Lemma fin_nn x : Finite x -> NoNaN x.
Proof. rewrite Finite_tx, NoNaN_tx. intros [r ->]. discriminate. Qed.
Lemma nn_add_l x y : Finite x -> NoNaN y -> NoNaN (sadd x y).
Proof. rewrite Finite_tx, !NoNaN_tx, tx_add, <- !xnan_false, xr_nan, !xnan_false. intros [r ->] N. destruct (tx y); cbn; congruence. Qed.
Lemma nn_add_r x y : NoNaN x -> Finite y -> NoNaN (sadd x y).
Proof. rewrite Finite_tx, !NoNaN_tx, tx_add, <- !xnan_false, xr_nan, !xnan_false. intros N [r ->]. destruct (tx x); cbn; congruence. Qed.
Lemma nn_sub x y : Finite x -> Finite y -> NoNaN (ssub x y).
Proof. rewrite !Finite_tx, !NoNaN_tx, tx_sub, <- !xnan_false, xr_nan, !xnan_false. intros [r ->] [s ->]. cbn. congruence. Qed.
Lemma nn_mul x y : Finite x -> Finite y -> NoNaN (smul x y).
Proof. rewrite !Finite_tx, !NoNaN_tx, tx_mul, <- !xnan_false, xr_nan, !xnan_false. intros [r ->] [s ->]. cbn [xmul]. congruence. Qed.
Lemma nn_half x : NoNaN x -> NoNaN (smul x shalf).
Proof.
  rewrite !NoNaN_tx, tx_mul, tx_half, <- !xnan_false, xr_nan, !xnan_false. intros N. destruct (tx x); cbn [xmul]; try congruence; unfold xsigned_inf; rewrite Rlt_bool_true by lra; discriminate.
Qed.
Lemma nn_div x y : Finite x -> Finite y -> ~ Eqs y szero -> NoNaN (sdiv x y).
Proof.
  rewrite !Finite_tx, !NoNaN_tx. intros [r E] [s F] Z. assert (s <> 0)%R. { intros ->. apply Z. apply Eqs_tx. rewrite F, tx_0. split; congruence. }
  rewrite tx_div by (rewrite F; apply Fin_neq; assumption). rewrite <- !xnan_false, xr_nan, !xnan_false. rewrite E, F. cbn [xdiv]. rewrite Req_bool_false by assumption. congruence.
Qed.
Lemma nn_addp x y : NotNeg x -> NotNeg y -> NoNaN x -> NoNaN y -> NoNaN (sadd x y).
Proof.
  intros X Y NX NY. apply NotNeg_Le in X; [|assumption]. apply NotNeg_Le in Y; [|assumption]. rewrite Le_tx, tx_0 in X, Y.
  rewrite !NoNaN_tx, tx_add, <- !xnan_false, xr_nan, !xnan_false. destruct (tx x), (tx y); try discriminate; cbn; congruence.
Qed.
Lemma nn_sqrt x : NotNeg x -> NoNaN x -> NoNaN (ssqrt x).
Proof. intros X N. apply sqrt_NoNaN; now apply NotNeg_Le. Qed.
End A.
Ltac nan := first [assumption | lazymatch goal with
  | |- NaN (sadd _ _) => apply nan_add; first [left; nan | right; nan]
  | |- NaN (ssub _ _) => apply nan_sub; first [left; nan | right; nan]
  | |- NaN (smul _ _) => apply nan_mul; first [left; nan | right; nan]
  | |- NaN (sdiv _ _) => apply nan_div; first [left; nan | right; nan]
  | |- NaN (sneg _) => apply nan_neg; nan
  | |- NaN (ssqrt _) => apply nan_sqrt; nan end].
Section S.
Context {A : arith}.
Implicit Types x y : num A.
Lemma is_ninf x : tx x = NInf -> x = sninf.
Proof. destruct A as [f P|]; [|exact (fun e => e)]. destruct x as [|[]| |]; cbn; try discriminate. reflexivity. Qed.
Lemma is_pinf x : tx x = PInf -> x = sinf.
Proof. destruct A as [f P|]; [|exact (fun e => e)]. destruct x as [|[]| |]; cbn; try discriminate. reflexivity. Qed.
Lemma inf_slab (o d : num A) : Finite o -> Finite d -> Lt szero d -> sdiv (ssub sninf o) d = sninf /\ sdiv (ssub sinf o) d = sinf.
Proof.
  rewrite !Finite_tx. intros [a EO] [b ED] P. rewrite Lt_tx, tx_0, ED in P. cbn in P. revert P. case Rlt_bool_spec; [intros B _|discriminate].
  assert (tx d <> Fin 0) by (rewrite ED; apply Fin_neq; lra).
  split; [apply is_ninf | apply is_pinf]; rewrite tx_div by assumption; rewrite tx_sub, ?tx_inf, ?tx_ninf, EO, ED; cbn [xsub xadd xneg]; rewrite ?xr_pinf, ?xr_ninf; cbn [xdiv]; rewrite ?Rlt_bool_false by lra; rewrite ?xr_pinf, ?xr_ninf; reflexivity.
Qed.
Lemma max_ign x y : NoNaN x -> NaN y \/ y = sninf -> s_max x y = x.
Proof.
  intros N [H| ->]; unfold s_max; pose proof (num_OrdLaws A) as L; [now apply (ol_max_nan2 _ L)|].
  destruct (ol_max_sel _ L x sninf) as [E|E]; [exact E|]. destruct (ol_max_le _ L x sninf N (ol_ninf_nan _ L)) as [H _]. rewrite E in *. symmetry. apply is_ninf. 
  change (Le x sninf) in H. rewrite Le_tx, tx_ninf in H. apply NoNaN_tx in N. destruct (tx x); try discriminate; reflexivity.
Qed.
Lemma min_ign x y : NoNaN x -> NaN y \/ y = sinf -> s_min x y = x.
Proof.
  intros N [H| ->]; unfold s_min; pose proof (num_OrdLaws A) as L; [now apply (ol_min_nan2 _ L)|].
  destruct (ol_min_sel _ L x sinf) as [E|E]; [exact E|]. destruct (ol_min_le _ L x sinf N (ol_inf_nan _ L)) as [H _]. rewrite E in *. symmetry. apply is_pinf. 
  change (Le sinf x) in H. rewrite Le_tx, tx_inf in H. apply NoNaN_tx in N. destruct (tx x); try discriminate; reflexivity.
Qed.
Lemma s_max_nn x y : NoNaN x -> NoNaN (s_max x y).
Proof. intros N. destruct (nan_or y) as [Y|Y]; [rewrite max_ign; auto|]. unfold s_max. destruct (ol_max_sel _ (num_OrdLaws A) x y) as [-> | ->]; assumption. Qed.
Lemma s_min_nn x y : NoNaN x -> NoNaN (s_min x y).
Proof. intros N. destruct (nan_or y) as [Y|Y]; [rewrite min_ign; auto|]. unfold s_min. destruct (ol_min_sel _ (num_OrdLaws A) x y) as [-> | ->]; assumption. Qed.
Definition Slab (d1 d2 : num A) : Prop := (NaN d1 /\ NaN d2) \/ (d1 = sninf /\ d2 = sinf).
Lemma slab_s start (d1 d2 : num A) : NoNaN start -> Slab d1 d2 -> s_max start (s_min d1 d2) = start.
Proof.
  intros N H. pose proof (num_OrdLaws A) as L. apply max_ign; [exact N|]. destruct H as [[H1 H2]|[-> ->]]; unfold s_min; [left; rewrite (ol_min_nan1 _ L) by exact H1; exact H2|].
  right. apply is_ninf. destruct (ol_min_le _ L sninf sinf (ol_ninf_nan _ L) (ol_inf_nan _ L)) as [H _]. change (Le (sfmin sninf sinf) (sninf : num A)) in H. rewrite Le_tx, tx_ninf in H. destruct (tx (sfmin sninf sinf)); try discriminate; reflexivity.
Qed.
Lemma slab_e end_ (d1 d2 : num A) : NoNaN end_ -> Slab d1 d2 -> s_min end_ (s_max d1 d2) = end_.
Proof.
  intros N H. pose proof (num_OrdLaws A) as L. apply min_ign; [exact N|]. destruct H as [[H1 H2]|[-> ->]]; unfold s_max; [left; rewrite (ol_max_nan1 _ L) by exact H1; exact H2|].
  right. apply is_pinf. destruct (ol_max_le _ L sninf sinf (ol_ninf_nan _ L) (ol_inf_nan _ L)) as [_ H]. change (Le (sinf : num A) (sfmax sninf sinf)) in H. rewrite Le_tx, tx_inf in H. destruct (tx (sfmax sninf sinf)); try discriminate; reflexivity.
Qed.
Lemma nn0 : NoNaN (szero : num A).
Proof. exact (ol_zero_nan _ (num_OrdLaws A)). Qed.
Lemma nni : NoNaN (sinf : num A).
Proof. exact (ol_inf_nan _ (num_OrdLaws A)). Qed.
End S.
Ltac nn := first [apply nn0 | apply nni | apply s_max_nn; nn | apply s_min_nn; nn].
Ltac slabs H := repeat match goal with
  | |- context [s_max ?a (s_min ?x ?y)] => rewrite (slab_s a x y ltac:(nn) H)
  | |- context [s_min ?a (s_max ?x ?y)] => rewrite (slab_e a x y ltac:(nn) H) end.
Ltac nc3 k H := assert (KK : k = 0%N \/ k = 1%N \/ k = 2%N) by lia; clear H; destruct KK as [->|[->| ->]].
Ltac nc4 k H := assert (KK : k = 0%N \/ k = 1%N \/ k = 2%N \/ k = 3%N) by lia; clear H; destruct KK as [->|[->|[->| ->]]].
Lemma nan_ne0 {A : arith} (x : num A) : NaN x -> negb (seq x szero) = true.
Proof. intros N. rewrite tx_eq. apply NaN_tx in N. rewrite N. reflexivity. Qed.
Ltac splits := lazymatch goal with |- _ /\ _ => split; splits | |- _ => idtac end.
Lemma C90_vector_nan_2d_pf : forall (A : arith) (v w : Vector2 (num A)) (s : num A), (exists d, NaN (vcoord2 v d)) ->
  NaN (v2_dot v w) /\ NaN (v2_dot w v) /\ NaN (v2_length v) /\ VAllNaN2 (v2_normalize v).
Proof.
  intros A v w s [d N]. assert (L : NaN (v2_length v)) by (unfold v2_length, v2_dot; destruct d; cbn [vcoord2] in N; nan).
  splits; [unfold v2_dot; destruct d; cbn [vcoord2] in N; nan | unfold v2_dot; destruct d; cbn [vcoord2] in N; nan | exact L |].
  intros e. unfold v2_normalize, v2_div, v2_new. destruct e; cbn [vcoord2 p2x p2y v2x v2y]; nan.
Qed.
Lemma C90_vector_nan_3d_pf : forall (A : arith) (v w : Vector3 (num A)) (s : num A), (exists d, NaN (vcoord3 v d)) ->
  NaN (v3_dot v w) /\ NaN (v3_dot w v) /\ NaN (v3_length v) /\ VAllNaN3 (v3_normalize v).
Proof.
  intros A v w s [d N]. assert (L : NaN (v3_length v)) by (unfold v3_length, v3_dot; destruct d; cbn [vcoord3] in N; nan).
  splits; [unfold v3_dot; destruct d; cbn [vcoord3] in N; nan | unfold v3_dot; destruct d; cbn [vcoord3] in N; nan | exact L |].
  intros e. unfold v3_normalize, v3_div, v3_new. destruct e; cbn [vcoord3 p3x p3y p3z v3x v3y v3z]; nan.
Qed.
Lemma C90_distance_nan_2d_pf : forall (A : arith) (p q : Point2 (num A)), (exists d, NaN (coord2 p d)) \/ (exists d, NaN (coord2 q d)) -> NaN (p2_distance p q).
Proof.
  intros A p q [[d N]|[d N]]; unfold p2_distance, p2_sub, v2_length, v2_dot, v2_new; destruct d; cbn [coord2 p2x p2y v2x v2y] in *; nan.
Qed.
Lemma C90_distance_nan_3d_pf : forall (A : arith) (p q : Point3 (num A)), (exists d, NaN (coord3 p d)) \/ (exists d, NaN (coord3 q d)) -> NaN (p3_distance p q).
Proof.
  intros A p q [[d N]|[d N]]; unfold p3_distance, p3_sub, v3_length, v3_dot, v3_new; destruct d; cbn [coord3 p3x p3y p3z v3x v3y v3z] in *; nan.
Qed.
Lemma C90_cross_nan_pf : forall (A : arith) (v w : Vector3 (num A)) (d e : Dimension3), d <> e -> NaN (vcoord3 v d) -> NaN (vcoord3 (v3_cross v w) e) /\ NaN (vcoord3 (v3_cross w v) e).
Proof.
  intros A v w d e NE N. unfold v3_cross, v3_new. destruct d, e; try congruence; cbn [vcoord3 v3x v3y v3z] in *; split; nan.
Qed.
Lemma C90_transform_nan_2d_pf : forall (A : arith) (t : Transform2 (num A)) (p : Point2 (num A)) (v : Vector2 (num A)),
  ((exists d, NaN (coord2 p d)) -> AllNaN2 (t2_transform_point t p)) /\ ((exists d, NaN (vcoord2 v d)) -> VAllNaN2 (t2_transform_vector t v)).
Proof.
  intros A t p v. split; intros [d N] e; unfold t2_transform_point, t2_transform_vector, m3_mul_point, m3_mul_vector, p2_new, v2_new; destruct d, e; cbn [coord2 vcoord2 p2x p2y v2x v2y] in *; nan.
Qed.
Lemma C90_transform_nan_3d_pf : forall (A : arith) (t : Transform3 (num A)) (p : Point3 (num A)) (v : Vector3 (num A)),
  ((exists d, NaN (coord3 p d)) -> AllNaN3 (t3_transform_point t p)) /\ ((exists d, NaN (vcoord3 v d)) -> VAllNaN3 (t3_transform_vector t v)).
Proof.
  intros A t p v. split; intros [d N] e; unfold t3_transform_point, t3_transform_vector, m4_mul_point, m4_mul_vector, p3_new, v3_new; destruct d, e; cbn [coord3 vcoord3 p3x p3y p3z v3x v3y v3z] in *; nan.
Qed.
Lemma C90_matrix_product_nan_2d_pf : forall (A : arith) (prof : profile) (a b : Matrix3x3 (num A)) (r c : N) (x : num A), (r < 3)%N -> (c < 3)%N -> m3_get prof a r c = Ret x -> NaN x ->
  (forall c' y, (c' < 3)%N -> m3_get prof (m3_mul a b) r c' = Ret y -> NaN y) /\ (forall r' y, (r' < 3)%N -> m3_get prof (m3_mul b a) r' c = Ret y -> NaN y).
Proof.
  intros A prof a b r c x R C E N. revert E. nc3 r R; nc3 c C; destruct prof as [[] []]; cbn; intros [= E]; subst x; split; intros k y K; nc3 k K; cbn -[sadd smul]; intros [= <-]; nan.
Qed.
Lemma C90_matrix_product_nan_3d_pf : forall (A : arith) (prof : profile) (a b : Matrix4x4 (num A)) (r c : N) (x : num A), (r < 4)%N -> (c < 4)%N -> m4_get prof a r c = Ret x -> NaN x ->
  (forall c' y, (c' < 4)%N -> m4_get prof (m4_mul a b) r c' = Ret y -> NaN y) /\ (forall r' y, (r' < 4)%N -> m4_get prof (m4_mul b a) r' c = Ret y -> NaN y).
Proof.
  intros A prof a b r c x R C E N. revert E. nc4 r R; nc4 c C; destruct prof as [[] []]; cbn; intros [= E]; subst x; split; intros k y K; nc4 k K; cbn -[sadd smul]; intros [= <-]; nan.
Qed.
Lemma C90_matrix_inverse_nan_2d_pf : forall (A : arith) (prof : profile) (m : Matrix3x3 (num A)) (r c : N) (x : num A), (r < 3)%N -> (c < 3)%N -> m3_get prof m r c = Ret x -> NaN x ->
  exists i, m3_inverse m = Ok i /\ (forall r' c' y, (r' < 3)%N -> (c' < 3)%N -> m3_get prof i r' c' = Ret y -> NaN y).
Proof.
  intros A prof m r c x R C E N. assert (D : NaN (m3_det m)) by (revert E; unfold m3_det; nc3 r R; nc3 c C; destruct prof as [[] []]; cbn; intros [= E]; subst x; nan).
  unfold m3_inverse. rewrite (nan_ne0 _ D). eexists. split; [reflexivity|]. intros r' c' y R' C'. nc3 r' R'; nc3 c' C'; destruct prof as [[] []]; cbn -[sadd smul ssub sdiv m3_det]; intros [= <-]; apply nan_div; right; exact D.
Qed.
Lemma C90_matrix_inverse_nan_3d_pf : forall (A : arith) (prof : profile) (m : Matrix4x4 (num A)) (r c : N) (x : num A), (r < 4)%N -> (c < 4)%N -> m4_get prof m r c = Ret x -> NaN x ->
  exists i, m4_inverse prof m = Ret (Ok i) /\ (forall r' c' y, (r' < 4)%N -> (c' < 4)%N -> m4_get prof i r' c' = Ret y -> NaN y).
Proof.
  intros A prof m r c x R C E N. assert (D : NaN (det4 m)) by (revert E; nc4 r R; nc4 c C; destruct prof as [[] []]; cbn -[det4]; intros [= E]; subst x; unfold det4, adj4; cbn [m4_0 m4_4 m4_8 m4_12]; nan).
  rewrite m4_inverse_closed. rewrite (nan_ne0 _ D). eexists. split; [reflexivity|]. intros r' c' y R' C'. unfold m4_divs, m4_map, m4_new. nc4 r' R'; nc4 c' C'; destruct prof as [[] []]; cbn -[sadd smul ssub sdiv det4 adj4]; intros [= <-]; apply nan_div; right; exact D.
Qed.
Lemma C90_ray_box_nan_axis_2d_pf : forall (A : arith) (b b' : BoundingBox2 (num A)) (r r' : Ray2 (num A)) (d : Dimension2),
  NaN (coord2 (r2_origin r) d) \/ NaN (vcoord2 (r2_direction r) d) ->
  (forall e, e <> d -> coord2 (bb2_min b') e = coord2 (bb2_min b) e /\ coord2 (bb2_max b') e = coord2 (bb2_max b) e /\ coord2 (r2_origin r') e = coord2 (r2_origin r) e /\ vcoord2 (r2_direction r') e = vcoord2 (r2_direction r) e) ->
  coord2 (bb2_min b') d = sninf -> coord2 (bb2_max b') d = sinf -> Finite (coord2 (r2_origin r') d) -> Finite (vcoord2 (r2_direction r') d) -> Lt szero (vcoord2 (r2_direction r') d) ->
  bb2_intersect_ray b r = bb2_intersect_ray b' r'.
Proof.
  intros A b b' r r' d N E M1 M2 FO FD P.
  assert (N1 : NaN (sdiv (ssub (coord2 (bb2_min b) d) (coord2 (r2_origin r) d)) (vcoord2 (r2_direction r) d))) by (destruct N as [N|N]; nan).
  assert (N2 : NaN (sdiv (ssub (coord2 (bb2_max b) d) (coord2 (r2_origin r) d)) (vcoord2 (r2_direction r) d))) by (destruct N as [N|N]; nan).
  pose proof (inf_slab _ _ FO FD P) as I. rewrite <- M1, <- M2 in I at 1. pose proof (or_introl (conj N1 N2) : Slab _ _) as H1. pose proof (or_intror I : Slab _ _) as H2. clear N N1 N2 I M1 M2.
  unfold bb2_intersect_ray. destruct d; [destruct (E D2Y ltac:(discriminate)) as (QY1 & QY2 & QY3 & QY4) | destruct (E D2X ltac:(discriminate)) as (QX1 & QX2 & QX3 & QX4)]; cbn [coord2 vcoord2] in *; slabs H1; slabs H2; rewrite ?QX1, ?QX2, ?QX3, ?QX4, ?QY1, ?QY2, ?QY3, ?QY4, ?QZ1, ?QZ2, ?QZ3, ?QZ4; reflexivity.
Qed.
Lemma C90_ray_box_nan_axis_3d_pf : forall (A : arith) (b b' : BoundingBox3 (num A)) (r r' : Ray3 (num A)) (d : Dimension3),
  NaN (coord3 (r3_origin r) d) \/ NaN (vcoord3 (r3_direction r) d) ->
  (forall e, e <> d -> coord3 (bb3_min b') e = coord3 (bb3_min b) e /\ coord3 (bb3_max b') e = coord3 (bb3_max b) e /\ coord3 (r3_origin r') e = coord3 (r3_origin r) e /\ vcoord3 (r3_direction r') e = vcoord3 (r3_direction r) e) ->
  coord3 (bb3_min b') d = sninf -> coord3 (bb3_max b') d = sinf -> Finite (coord3 (r3_origin r') d) -> Finite (vcoord3 (r3_direction r') d) -> Lt szero (vcoord3 (r3_direction r') d) ->
  bb3_intersect_ray b r = bb3_intersect_ray b' r'.
Proof.
  intros A b b' r r' d N E M1 M2 FO FD P.
  assert (N1 : NaN (sdiv (ssub (coord3 (bb3_min b) d) (coord3 (r3_origin r) d)) (vcoord3 (r3_direction r) d))) by (destruct N as [N|N]; nan).
  assert (N2 : NaN (sdiv (ssub (coord3 (bb3_max b) d) (coord3 (r3_origin r) d)) (vcoord3 (r3_direction r) d))) by (destruct N as [N|N]; nan).
  pose proof (inf_slab _ _ FO FD P) as I. rewrite <- M1, <- M2 in I at 1. pose proof (or_introl (conj N1 N2) : Slab _ _) as H1. pose proof (or_intror I : Slab _ _) as H2. clear N N1 N2 I M1 M2.
  unfold bb3_intersect_ray. destruct d; [destruct (E D3Y ltac:(discriminate)) as (QY1 & QY2 & QY3 & QY4); destruct (E D3Z ltac:(discriminate)) as (QZ1 & QZ2 & QZ3 & QZ4) | destruct (E D3X ltac:(discriminate)) as (QX1 & QX2 & QX3 & QX4); destruct (E D3Z ltac:(discriminate)) as (QZ1 & QZ2 & QZ3 & QZ4) | destruct (E D3X ltac:(discriminate)) as (QX1 & QX2 & QX3 & QX4); destruct (E D3Y ltac:(discriminate)) as (QY1 & QY2 & QY3 & QY4)]; cbn [coord3 vcoord3] in *; slabs H1; slabs H2; rewrite ?QX1, ?QX2, ?QX3, ?QX4, ?QY1, ?QY2, ?QY3, ?QY4, ?QZ1, ?QZ2, ?QZ3, ?QZ4; reflexivity.
Qed.
Lemma C90_finite_not_nan_2d_pf : forall (A : arith) (p q : Point2 (num A)) (v w : Vector2 (num A)) (s : num A), Finite2 p -> Finite2 q -> VFinite2 v -> VFinite2 w -> Finite s ->
  NoNaN2 (p2_add p v) /\ NoNaN2 (p2_sub_v p v) /\ VNoNaN2 (p2_sub p q) /\ VNoNaN2 (v2_add v w) /\ VNoNaN2 (v2_sub v w) /\ VNoNaN2 (v2_mul v s) /\ (~ Eqs s szero -> VNoNaN2 (v2_div v s)) /\
  NoNaN (v2_dot v v) /\ NoNaN (v2_length v) /\ NoNaN (p2_distance p q) /\ (forall t, Finite t -> NoNaN2 (r2_at (r2_new p v) t)) /\
  (let b := mkBB2 p q in (forall d, NoNaN (bb2_extent b d)) /\ NoNaN2 (bb2_center b)).
Proof.
  intros A p q v w s FP FQ FV FW FS.
  assert (DD : forall u : Vector2 (num A), (forall d, NoNaN (smul (vcoord2 u d) (vcoord2 u d))) -> NoNaN (v2_dot u u) /\ NoNaN (v2_length u)).
  { intros u H. assert (DN : NoNaN (v2_dot u u) /\ NotNeg (v2_dot u u)). { unfold v2_dot. pose proof (H D2X) as HX. pose proof (H D2Y) as HY. split; [apply nn_addp; try assumption; apply sqr_NotNeg | apply add_NotNeg; apply sqr_NotNeg]. } split; [apply DN|]. apply nn_sqrt; apply DN. }
  assert (SQ : forall x : num A, NoNaN x -> NoNaN (smul x x)).
  { intros x N. rewrite NoNaN_tx in *. rewrite tx_mul, <- xnan_false, xr_nan, xnan_false. destruct (tx x); cbn [xmul]; congruence. }
  splits.
  1-7: intros; try intros d; pose proof (FP d); pose proof (FQ d); pose proof (FV d); pose proof (FW d); destruct d; cbn in *; first [now apply nn_sub | now apply nn_mul | now apply nn_div | now (apply nn_add_l; [|apply fin_nn])].
  - apply DD. intros d. now apply nn_mul.
  - apply DD. intros d. now apply nn_mul.
  - apply DD. intros d. apply SQ. rewrite dsub2. now apply nn_sub.
  - intros t FT d. pose proof (FP d). pose proof (FV d). destruct d; cbn in *; apply nn_add_l; auto; now apply nn_mul.
  - intros b. split; intros d; pose proof (FP d); pose proof (FQ d); destruct d; cbn in *; [..|idtac]; first [now apply nn_sub | apply nn_add_l; [assumption|]; apply nn_half; now apply nn_sub].
Qed.
Lemma C90_finite_not_nan_3d_pf : forall (A : arith) (p q : Point3 (num A)) (v w : Vector3 (num A)) (s : num A), Finite3 p -> Finite3 q -> VFinite3 v -> VFinite3 w -> Finite s ->
  NoNaN3 (p3_add p v) /\ NoNaN3 (p3_sub_v p v) /\ VNoNaN3 (p3_sub p q) /\ VNoNaN3 (v3_add v w) /\ VNoNaN3 (v3_sub v w) /\ VNoNaN3 (v3_mul v s) /\ (~ Eqs s szero -> VNoNaN3 (v3_div v s)) /\
  NoNaN (v3_dot v v) /\ NoNaN (v3_length v) /\ NoNaN (p3_distance p q) /\ (forall t, Finite t -> NoNaN3 (r3_at (r3_new p v) t)) /\
  (let b := mkBB3 p q in (forall d, NoNaN (bb3_extent b d)) /\ NoNaN3 (bb3_center b)).
Proof.
  intros A p q v w s FP FQ FV FW FS.
  assert (DD : forall u : Vector3 (num A), (forall d, NoNaN (smul (vcoord3 u d) (vcoord3 u d))) -> NoNaN (v3_dot u u) /\ NoNaN (v3_length u)).
  { intros u H. assert (DN : NoNaN (v3_dot u u) /\ NotNeg (v3_dot u u)). { unfold v3_dot. pose proof (H D3X) as HX. pose proof (H D3Y) as HY. pose proof (H D3Z) as HZ. split; [apply nn_addp; [apply add_NotNeg; apply sqr_NotNeg | apply sqr_NotNeg | apply nn_addp; try assumption; apply sqr_NotNeg | assumption] | repeat apply add_NotNeg; apply sqr_NotNeg]. } split; [apply DN|]. apply nn_sqrt; apply DN. }
  assert (SQ : forall x : num A, NoNaN x -> NoNaN (smul x x)).
  { intros x N. rewrite NoNaN_tx in *. rewrite tx_mul, <- xnan_false, xr_nan, xnan_false. destruct (tx x); cbn [xmul]; congruence. }
  splits.
  1-7: intros; try intros d; pose proof (FP d); pose proof (FQ d); pose proof (FV d); pose proof (FW d); destruct d; cbn in *; first [now apply nn_sub | now apply nn_mul | now apply nn_div | now (apply nn_add_l; [|apply fin_nn])].
  - apply DD. intros d. now apply nn_mul.
  - apply DD. intros d. now apply nn_mul.
  - apply DD. intros d. apply SQ. rewrite dsub3. now apply nn_sub.
  - intros t FT d. pose proof (FP d). pose proof (FV d). destruct d; cbn in *; apply nn_add_l; auto; now apply nn_mul.
  - intros b. split; intros d; pose proof (FP d); pose proof (FQ d); destruct d; cbn in *; [..|idtac]; first [now apply nn_sub | apply nn_add_l; [assumption|]; apply nn_half; now apply nn_sub].
Qed.
Lemma C90_finite_operands_nan_pf : let v := mkVector3 (d64 1 600) (d64 1 600) (d64 0 0) : Vector3 (num A64) in let w := mkVector3 (d64 1 600) (nd64 1 600) (d64 1 0) : Vector3 (num A64) in
  let b := mkBB2 (mkPoint2 (nd64 1 1023) (d64 0 0)) (mkPoint2 (d64 1 1023) (d64 0 0)) : BoundingBox2 (num A64) in
  VFinite3 v /\ VFinite3 w /\ NaN (v3_dot v w) /\ NaN (vcoord3 (v3_cross v v) D3Z) /\ Ordered2 b /\ Finite2 (bb2_min b) /\ Finite2 (bb2_max b) /\ NaN (bb2_area b).
Proof.
  cbv zeta. conjs; try (intros []); try (vm_compute; reflexivity).
Qed.
