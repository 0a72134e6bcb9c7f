(** Proofs: cutting boxes by planes and walking a kd-tree along a ray (C102). *)
From Coq Require Import Bool NArith ZArith Reals List Permutation Lra Lia.
From Flocq Require Import Core.Zaux Core.Raux.
From Verif Require Import Scalar Types Vector2 Vector3 Point2 Point3 Ray BoundingBox2 BoundingBox3 Float
  XReal OrdLaws Arith SpecOrder SpecFloat SpecSame SpecClip SpecBvh SpecKd OrderProofs OrderBox FloatX XArith FloatLaws SlabBase FloatRay FloatSym FloatClip FloatAxis ExVals ErrBase.
Import ListNotations.
Section A.
Context {A : arith}.
Implicit Types x y o : num A.
Lemma slab_split la m ha o (d : num A) : Finite o -> Finite d -> ok o d la -> ok o d m -> ok o d ha -> Le la m -> Le m ha -> forall t : xreal, xnan t = false ->
  (xle (tx (near la ha o d)) t = true /\ xle t (tx (far la ha o d)) = true <->
   (xle (tx (near la m o d)) t = true /\ xle t (tx (far la m o d)) = true) \/ (xle (tx (near m ha o d)) t = true /\ xle t (tx (far m ha o d)) = true)).
Proof.
  intros Fo Fd Ol Om Oh L1 L2 t Nt. destruct (quo_dir o d Fo Fd) as (F & up & E & M). unfold near, far. rewrite !tx_smin, !tx_smax, !E.
  pose proof (M la m Ol Om L1) as K1. pose proof (M m ha Om Oh L2) as K2. destruct up.
  - pose proof (xle_trans _ _ _ K1 K2) as K3. rewrite (xmin_l _ _ K1), (xmin_l _ _ K2), (xmin_l _ _ K3), (xmax_r _ _ K1), (xmax_r _ _ K2), (xmax_r _ _ K3). split.
    + intros [H1 H2]. destruct (xle_total t (F (tx m)) Nt (xle_n2 _ _ K1)); tauto.
    + intros [[H1 H2]|[H1 H2]]; (split; [first [assumption | exact (xle_trans _ _ _ K1 H1)] | first [assumption | exact (xle_trans _ _ _ H2 K2)]]).
  - pose proof (xle_trans _ _ _ K2 K1) as K3. rewrite (xmin_r _ _ K1), (xmin_r _ _ K2), (xmin_r _ _ K3), (xmax_l _ _ K1), (xmax_l _ _ K2), (xmax_l _ _ K3). split.
    + intros [H1 H2]. destruct (xle_total t (F (tx m)) Nt (xle_n1 _ _ K1)); tauto.
    + intros [[H1 H2]|[H1 H2]]; (split; [first [assumption | exact (xle_trans _ _ _ K2 H1)] | first [assumption | exact (xle_trans _ _ _ H2 K1)]]).
Qed.
Lemma slab_order_pos la m ha o (d : num A) : Finite o -> Finite d -> Lt szero d -> Le la m -> Le m ha -> forall t t' : xreal, xle t (tx (far la m o d)) = true -> xle (tx (near m ha o d)) t' = true -> xle t t' = true.
Proof.
  intros Fo Fd P L1 L2 t t'. apply Finite_tx in Fo, Fd. destruct Fo as [r Eo], Fd as [a Ed]. apply Lt_tx in P. rewrite Ed, tx_0 in P. apply xlt_fin in P.
  pose proof (quo_mono_pos la m o d a r Eo Ed P L1) as K1. pose proof (quo_mono_pos m ha o d a r Eo Ed P L2) as K2. apply Le_tx in K1, K2. unfold near, far. rewrite tx_smin, tx_smax, (xmax_r _ _ K1), (xmin_l _ _ K2). intros H H'. exact (xle_trans _ _ _ H H').
Qed.
Lemma slab_order_neg la m ha o (d : num A) : Finite o -> Finite d -> Lt d szero -> Le la m -> Le m ha -> forall t t' : xreal, xle t (tx (far m ha o d)) = true -> xle (tx (near la m o d)) t' = true -> xle t t' = true.
Proof.
  intros Fo Fd P L1 L2 t t'. apply Finite_tx in Fo, Fd. destruct Fo as [r Eo], Fd as [a Ed]. apply Lt_tx in P. rewrite Ed, tx_0 in P. apply xlt_fin in P.
  pose proof (quo_mono_neg la m o d a r Eo Ed P L1) as K1. pose proof (quo_mono_neg m ha o d a r Eo Ed P L2) as K2. apply Le_tx in K1, K2. unfold near, far. rewrite tx_smin, tx_smax, (xmax_l _ _ K2), (xmin_r _ _ K1). intros H H'. exact (xle_trans _ _ _ H H').
Qed.
Lemma slab_order_zero la m ha o (d : num A) : Finite o -> Finite d -> Eqs d szero -> ok o d la -> ok o d m -> ok o d ha -> Le la m -> Le m ha -> forall t t' : R,
  xle (tx (near la m o d)) (Fin t) = true -> xle (Fin t) (tx (far la m o d)) = true -> xle (tx (near m ha o d)) (Fin t') = true -> xle (Fin t') (tx (far m ha o d)) = true -> False.
Proof.
  intros Fo Fd Z Ol Om Oh L1 L2 t t'. destruct (quo_dir o d Fo Fd) as (F & up & E & M). unfold near, far. rewrite !tx_smin, !tx_smax, !E.
  assert (Q : F (tx m) = PInf \/ F (tx m) = NInf).
  { rewrite <- E. apply Finite_tx in Fo, Fd. destruct Fo as [r Eo], Fd as [a Ed]. pose proof (Om Z) as Ne. apply Eqs_tx in Z. destruct Z as [Z _]. rewrite Z, tx_0 in Ed. injection Ed as <-. rewrite tx_0 in Z. destruct (div_zero d Z) as [b D]. rewrite D.
    pose proof (num_OrdLaws A) as L. assert (No : NoNaN o) by (apply NoNaN_tx; rewrite Eo; discriminate). pose proof (Le_nan L _ _ L1) as [_ Nm].
    destruct (Le_total L o m No Nm) as [K|K].
    - assert (LT : Lt o m) by (apply (Lt_iff L); repeat split; try assumption; intros K'; apply Ne; apply (Eqs_iff L); split; assumption).
      apply Lt_tx in LT. rewrite Eo in LT. rewrite zq_pos by (now apply sub_pos with r). destruct b; tauto.
    - assert (LT : Lt m o) by (apply (Lt_iff L); repeat split; try assumption; intros K'; apply Ne; apply (Eqs_iff L); split; assumption).
      apply Lt_tx in LT. rewrite Eo in LT. rewrite zq_neg by (now apply sub_neg with r). destruct b; tauto. }
  pose proof (M la m Ol Om L1) as K1. pose proof (M m ha Om Oh L2) as K2. destruct up.
  - rewrite (xmin_l _ _ K1), (xmin_l _ _ K2), (xmax_r _ _ K1), (xmax_r _ _ K2). destruct Q as [-> | ->]; cbn; discriminate.
  - rewrite (xmin_r _ _ K1), (xmin_r _ _ K2), (xmax_l _ _ K1), (xmax_l _ _ K2). destruct Q as [-> | ->]; cbn; discriminate.
Qed.
Lemma fop_app {T} (R : T -> T -> Prop) l l' : ForallOrdPairs R l -> ForallOrdPairs R l' -> (forall (x y : T), In x l -> In y l' -> R x y) -> ForallOrdPairs R (l ++ l').
Proof.
  intros H H' K. induction H as [|x l H1 H2 IH]; [exact H'|]. cbn [app]. constructor.
  - apply Forall_app. split; [exact H1|]. apply Forall_forall. intros y Iy. apply K; [now left | exact Iy].
  - apply IH. intros a b Ia Ib. apply K; [now right | exact Ib].
Qed.
End A.
Section D2.
Context {A : arith}.
Notation L := (num_OrdLaws A).
Implicit Types (b c : BoundingBox2 (num A)) (r : Ray2 (num A)).
Lemma below2_min b d m d' : coord2 (bb2_min (below2 b d m)) d' = coord2 (bb2_min b) d'. Proof. reflexivity. Qed.
Lemma above2_max b d m d' : coord2 (bb2_max (above2 b d m)) d' = coord2 (bb2_max b) d'. Proof. reflexivity. Qed.
Lemma below2_at b d m : coord2 (bb2_max (below2 b d m)) d = m. Proof. destruct d; reflexivity. Qed.
Lemma above2_at b d m : coord2 (bb2_min (above2 b d m)) d = m. Proof. destruct d; reflexivity. Qed.
Lemma below2_off b d m d' : d' <> d -> coord2 (bb2_max (below2 b d m)) d' = coord2 (bb2_max b) d'. Proof. destruct d, d'; try congruence; reflexivity. Qed.
Lemma above2_off b d m d' : d' <> d -> coord2 (bb2_min (above2 b d m)) d' = coord2 (bb2_min b) d'. Proof. destruct d, d'; try congruence; reflexivity. Qed.
Lemma dim2_dec (d d' : Dimension2) : {d' = d} + {d' <> d}. Proof. decide equality. Qed.
Lemma below2_ordered b d m : Ordered2 b -> Le (coord2 (bb2_min b) d) m -> Ordered2 (below2 b d m).
Proof. intros H K d'. rewrite below2_min. destruct (dim2_dec d d') as [->|N]; [now rewrite below2_at | rewrite below2_off by exact N; apply H]. Qed.
Lemma above2_ordered b d m : Ordered2 b -> Le m (coord2 (bb2_max b) d) -> Ordered2 (above2 b d m).
Proof. intros H K d'. rewrite above2_max. destruct (dim2_dec d d') as [->|N]; [now rewrite above2_at | rewrite above2_off by exact N; apply H]. Qed.
Lemma below2_grazing b r d m : NotGrazing2 b r -> OffPlane2 r d m -> NotGrazing2 (below2 b d m) r.
Proof. intros G P d' Z. rewrite below2_min. split; [now apply G|]. destruct (dim2_dec d d') as [->|N]; [rewrite below2_at; now apply P | rewrite below2_off by exact N; now apply G]. Qed.
Lemma above2_grazing b r d m : NotGrazing2 b r -> OffPlane2 r d m -> NotGrazing2 (above2 b d m) r.
Proof. intros G P d' Z. rewrite above2_max. split; [|now apply G]. destruct (dim2_dec d d') as [->|N]; [rewrite above2_at; now apply P | rewrite above2_off by exact N; now apply G]. Qed.
Lemma hits2_iff b r : hits2 r b = true <-> exists t, HitAt2 b r t.
Proof.
  unfold hits2, HitAt2. pose proof (ray_xres2 b r) as X. destruct (bb2_intersect_ray b r) as [[s e]|]; cbn [xres] in X.
  - split; [|reflexivity]. intros _. exists s, s, e. destruct X as (X & X1 & X2). rewrite <- X1, <- X2 in X. split; [reflexivity|]. split; [apply Le_tx, xle_rfl; exact (xle_n1 _ _ X) | now apply Le_tx].
  - split; [discriminate|]. intros (t & s & e & H & _). discriminate.
Qed.
End D2.
Section D3.
Context {A : arith}.
Notation L := (num_OrdLaws A).
Implicit Types (b c : BoundingBox3 (num A)) (r : Ray3 (num A)).
Lemma below3_min b d m d' : coord3 (bb3_min (below3 b d m)) d' = coord3 (bb3_min b) d'. Proof. reflexivity. Qed.
Lemma above3_max b d m d' : coord3 (bb3_max (above3 b d m)) d' = coord3 (bb3_max b) d'. Proof. reflexivity. Qed.
Lemma below3_at b d m : coord3 (bb3_max (below3 b d m)) d = m. Proof. destruct d; reflexivity. Qed.
Lemma above3_at b d m : coord3 (bb3_min (above3 b d m)) d = m. Proof. destruct d; reflexivity. Qed.
Lemma below3_off b d m d' : d' <> d -> coord3 (bb3_max (below3 b d m)) d' = coord3 (bb3_max b) d'. Proof. destruct d, d'; try congruence; reflexivity. Qed.
Lemma above3_off b d m d' : d' <> d -> coord3 (bb3_min (above3 b d m)) d' = coord3 (bb3_min b) d'. Proof. destruct d, d'; try congruence; reflexivity. Qed.
Lemma dim3_dec (d d' : Dimension3) : {d' = d} + {d' <> d}. Proof. decide equality. Qed.
Lemma below3_ordered b d m : Ordered3 b -> Le (coord3 (bb3_min b) d) m -> Ordered3 (below3 b d m).
Proof. intros H K d'. rewrite below3_min. destruct (dim3_dec d d') as [->|N]; [now rewrite below3_at | rewrite below3_off by exact N; apply H]. Qed.
Lemma above3_ordered b d m : Ordered3 b -> Le m (coord3 (bb3_max b) d) -> Ordered3 (above3 b d m).
Proof. intros H K d'. rewrite above3_max. destruct (dim3_dec d d') as [->|N]; [now rewrite above3_at | rewrite above3_off by exact N; apply H]. Qed.
Lemma below3_grazing b r d m : NotGrazing3 b r -> OffPlane3 r d m -> NotGrazing3 (below3 b d m) r.
Proof. intros G P d' Z. rewrite below3_min. split; [now apply G|]. destruct (dim3_dec d d') as [->|N]; [rewrite below3_at; now apply P | rewrite below3_off by exact N; now apply G]. Qed.
Lemma above3_grazing b r d m : NotGrazing3 b r -> OffPlane3 r d m -> NotGrazing3 (above3 b d m) r.
Proof. intros G P d' Z. rewrite above3_max. split; [|now apply G]. destruct (dim3_dec d d') as [->|N]; [rewrite above3_at; now apply P | rewrite above3_off by exact N; now apply G]. Qed.
Lemma hits3_iff b r : hits3 r b = true <-> exists t, HitAt3 b r t.
Proof.
  unfold hits3, HitAt3. pose proof (ray_xres3 b r) as X. destruct (bb3_intersect_ray b r) as [[s e]|]; cbn [xres] in X.
  - split; [|reflexivity]. intros _. exists s, s, e. destruct X as (X & X1 & X2). rewrite <- X1, <- X2 in X. split; [reflexivity|]. split; [apply Le_tx, xle_rfl; exact (xle_n1 _ _ X) | now apply Le_tx].
  - split; [discriminate|]. intros (t & s & e & H & _). discriminate.
Qed.
End D3.
Lemma C102_split_2d_pf : forall (A : arith) (b : BoundingBox2 (num A)) (r : Ray2 (num A)) (d : Dimension2) (m : num A), Ordered2 b -> Finite2 (r2_origin r) -> VFinite2 (r2_direction r) -> NotGrazing2 b r ->
  Le (coord2 (bb2_min b) d) m -> Le m (coord2 (bb2_max b) d) -> OffPlane2 r d m ->
  forall t, HitAt2 b r t <-> HitAt2 (below2 b d m) r t \/ HitAt2 (above2 b d m) r t.
Proof.
  intros A b r d m Ob F V G L1 L2 P t.
  destruct (NoNaN_dec t) as [Nt|Nt]; [|split; [intros H; elim Nt; exact (hit2_nan _ _ _ H) | intros [H|H]; elim Nt; exact (hit2_nan _ _ _ H)]].
  destruct (num2 b r Ob F V G) as [A1 A2].
  destruct (num2 (below2 b d m) r (below2_ordered b d m Ob L1) F V (below2_grazing b r d m G P)) as [B1 B2].
  destruct (num2 (above2 b d m) r (above2_ordered b d m Ob L2) F V (above2_grazing b r d m G P)) as [C1 C2].
  rewrite !hit2_iff by assumption. clear A1 A2 B1 B2 C1 C2. unfold NR2, FR2.
  pose proof (slab_split (coord2 (bb2_min b) d) m (coord2 (bb2_max b) d) _ _ (F d) (V d) (fun Z => proj1 (G d Z)) P (fun Z => proj2 (G d Z)) L1 L2 (tx t) (eq_trans (eq_sym (tx_nan t)) Nt)) as K.
  split.
  - intros [Z H]. destruct (proj1 K (H d)) as [H'|H']; [left | right]; (split; [exact Z|]); intros d'; (destruct (dim2_dec d d') as [->|N]; [rewrite ?below2_min, ?below2_at, ?above2_max, ?above2_at; exact H' | rewrite ?below2_min, ?(below2_off b d m d' N), ?above2_max, ?(above2_off b d m d' N); apply H]).
  - assert (W : forall x y : num A, True) by easy.
    intros [[Z H]|[Z H]]; (split; [exact Z|]); intros d'; specialize (H d'); rewrite ?below2_min, ?above2_max in H; (destruct (dim2_dec d d') as [->|N]; [rewrite ?below2_at, ?above2_at in H; apply K; tauto | rewrite ?(below2_off b d m d' N), ?(above2_off b d m d' N) in H; exact H]).
Qed.
Lemma C102_split_3d_pf : forall (A : arith) (b : BoundingBox3 (num A)) (r : Ray3 (num A)) (d : Dimension3) (m : num A), Ordered3 b -> Finite3 (r3_origin r) -> VFinite3 (r3_direction r) -> NotGrazing3 b r ->
  Le (coord3 (bb3_min b) d) m -> Le m (coord3 (bb3_max b) d) -> OffPlane3 r d m ->
  forall t, HitAt3 b r t <-> HitAt3 (below3 b d m) r t \/ HitAt3 (above3 b d m) r t.
Proof.
  intros A b r d m Ob F V G L1 L2 P t.
  destruct (NoNaN_dec t) as [Nt|Nt]; [|split; [intros H; elim Nt; exact (hit3_nan _ _ _ H) | intros [H|H]; elim Nt; exact (hit3_nan _ _ _ H)]].
  destruct (num3 b r Ob F V G) as [A1 A2].
  destruct (num3 (below3 b d m) r (below3_ordered b d m Ob L1) F V (below3_grazing b r d m G P)) as [B1 B2].
  destruct (num3 (above3 b d m) r (above3_ordered b d m Ob L2) F V (above3_grazing b r d m G P)) as [C1 C2].
  rewrite !hit3_iff by assumption. clear A1 A2 B1 B2 C1 C2. unfold NR3, FR3.
  pose proof (slab_split (coord3 (bb3_min b) d) m (coord3 (bb3_max b) d) _ _ (F d) (V d) (fun Z => proj1 (G d Z)) P (fun Z => proj2 (G d Z)) L1 L2 (tx t) (eq_trans (eq_sym (tx_nan t)) Nt)) as K.
  split.
  - intros [Z H]. destruct (proj1 K (H d)) as [H'|H']; [left | right]; (split; [exact Z|]); intros d'; (destruct (dim3_dec d d') as [->|N]; [rewrite ?below3_min, ?below3_at, ?above3_max, ?above3_at; exact H' | rewrite ?below3_min, ?(below3_off b d m d' N), ?above3_max, ?(above3_off b d m d' N); apply H]).
  - assert (W : forall x y : num A, True) by easy.
    intros [[Z H]|[Z H]]; (split; [exact Z|]); intros d'; specialize (H d'); rewrite ?below3_min, ?above3_max in H; (destruct (dim3_dec d d') as [->|N]; [rewrite ?below3_at, ?above3_at in H; apply K; tauto | rewrite ?(below3_off b d m d' N), ?(above3_off b d m d' N) in H; exact H]).
Qed.
Lemma C102_order_2d_pf : forall (A : arith) (b : BoundingBox2 (num A)) (r : Ray2 (num A)) (d : Dimension2) (m : num A), Ordered2 b -> Finite2 (r2_origin r) -> VFinite2 (r2_direction r) -> NotGrazing2 b r ->
  Le (coord2 (bb2_min b) d) m -> Le m (coord2 (bb2_max b) d) -> OffPlane2 r d m ->
  (Lt szero (vcoord2 (r2_direction r) d) -> forall t t', HitAt2 (below2 b d m) r t -> HitAt2 (above2 b d m) r t' -> Le t t') /\
  (Lt (vcoord2 (r2_direction r) d) szero -> forall t t', HitAt2 (above2 b d m) r t -> HitAt2 (below2 b d m) r t' -> Le t t') /\
  (Eqs (vcoord2 (r2_direction r) d) szero -> forall t t', Finite t -> Finite t' -> ~ (HitAt2 (below2 b d m) r t /\ HitAt2 (above2 b d m) r t')).
Proof.
  intros A b r d m Ob F V G L1 L2 P.
  destruct (num2 (below2 b d m) r (below2_ordered b d m Ob L1) F V (below2_grazing b r d m G P)) as [B1 B2].
  destruct (num2 (above2 b d m) r (above2_ordered b d m Ob L2) F V (above2_grazing b r d m G P)) as [C1 C2].
  assert (HB : forall t, HitAt2 (below2 b d m) r t -> xle (tx (near (coord2 (bb2_min b) d) m (coord2 (r2_origin r) d) (vcoord2 (r2_direction r) d))) (tx t) = true /\ xle (tx t) (tx (far (coord2 (bb2_min b) d) m (coord2 (r2_origin r) d) (vcoord2 (r2_direction r) d))) = true).
  { intros t H. pose proof (hit2_nan _ _ _ H) as N. apply hit2_iff in H; try assumption. destruct H as [_ H]. specialize (H d). unfold NR2, FR2 in H. rewrite below2_min, below2_at in H. exact H. }
  assert (HA : forall t, HitAt2 (above2 b d m) r t -> xle (tx (near m (coord2 (bb2_max b) d) (coord2 (r2_origin r) d) (vcoord2 (r2_direction r) d))) (tx t) = true /\ xle (tx t) (tx (far m (coord2 (bb2_max b) d) (coord2 (r2_origin r) d) (vcoord2 (r2_direction r) d))) = true).
  { intros t H. pose proof (hit2_nan _ _ _ H) as N. apply hit2_iff in H; try assumption. destruct H as [_ H]. specialize (H d). unfold NR2, FR2 in H. rewrite above2_max, above2_at in H. exact H. }
  clear B1 B2 C1 C2. split; [|split].
  - intros S t t' H H'. apply HB in H. apply HA in H'. apply Le_tx. exact (slab_order_pos _ _ _ _ _ (F d) (V d) S L1 L2 _ _ (proj2 H) (proj1 H')).
  - intros S t t' H H'. apply HA in H. apply HB in H'. apply Le_tx. exact (slab_order_neg _ _ _ _ _ (F d) (V d) S L1 L2 _ _ (proj2 H) (proj1 H')).
  - intros S t t' Ft Ft' [H H']. apply HB in H. apply HA in H'. apply Finite_tx in Ft, Ft'. destruct Ft as [q Et], Ft' as [q' Et']. rewrite Et in H. rewrite Et' in H'.
    exact (slab_order_zero _ _ _ _ _ (F d) (V d) S (fun Z => proj1 (G d Z)) P (fun Z => proj2 (G d Z)) L1 L2 q q' (proj1 H) (proj2 H) (proj1 H') (proj2 H')).
Qed.
Lemma C102_order_3d_pf : forall (A : arith) (b : BoundingBox3 (num A)) (r : Ray3 (num A)) (d : Dimension3) (m : num A), Ordered3 b -> Finite3 (r3_origin r) -> VFinite3 (r3_direction r) -> NotGrazing3 b r ->
  Le (coord3 (bb3_min b) d) m -> Le m (coord3 (bb3_max b) d) -> OffPlane3 r d m ->
  (Lt szero (vcoord3 (r3_direction r) d) -> forall t t', HitAt3 (below3 b d m) r t -> HitAt3 (above3 b d m) r t' -> Le t t') /\
  (Lt (vcoord3 (r3_direction r) d) szero -> forall t t', HitAt3 (above3 b d m) r t -> HitAt3 (below3 b d m) r t' -> Le t t') /\
  (Eqs (vcoord3 (r3_direction r) d) szero -> forall t t', Finite t -> Finite t' -> ~ (HitAt3 (below3 b d m) r t /\ HitAt3 (above3 b d m) r t')).
Proof.
  intros A b r d m Ob F V G L1 L2 P.
  destruct (num3 (below3 b d m) r (below3_ordered b d m Ob L1) F V (below3_grazing b r d m G P)) as [B1 B2].
  destruct (num3 (above3 b d m) r (above3_ordered b d m Ob L2) F V (above3_grazing b r d m G P)) as [C1 C2].
  assert (HB : forall t, HitAt3 (below3 b d m) r t -> xle (tx (near (coord3 (bb3_min b) d) m (coord3 (r3_origin r) d) (vcoord3 (r3_direction r) d))) (tx t) = true /\ xle (tx t) (tx (far (coord3 (bb3_min b) d) m (coord3 (r3_origin r) d) (vcoord3 (r3_direction r) d))) = true).
  { intros t H. pose proof (hit3_nan _ _ _ H) as N. apply hit3_iff in H; try assumption. destruct H as [_ H]. specialize (H d). unfold NR3, FR3 in H. rewrite below3_min, below3_at in H. exact H. }
  assert (HA : forall t, HitAt3 (above3 b d m) r t -> xle (tx (near m (coord3 (bb3_max b) d) (coord3 (r3_origin r) d) (vcoord3 (r3_direction r) d))) (tx t) = true /\ xle (tx t) (tx (far m (coord3 (bb3_max b) d) (coord3 (r3_origin r) d) (vcoord3 (r3_direction r) d))) = true).
  { intros t H. pose proof (hit3_nan _ _ _ H) as N. apply hit3_iff in H; try assumption. destruct H as [_ H]. specialize (H d). unfold NR3, FR3 in H. rewrite above3_max, above3_at in H. exact H. }
  clear B1 B2 C1 C2. split; [|split].
  - intros S t t' H H'. apply HB in H. apply HA in H'. apply Le_tx. exact (slab_order_pos _ _ _ _ _ (F d) (V d) S L1 L2 _ _ (proj2 H) (proj1 H')).
  - intros S t t' H H'. apply HA in H. apply HB in H'. apply Le_tx. exact (slab_order_neg _ _ _ _ _ (F d) (V d) S L1 L2 _ _ (proj2 H) (proj1 H')).
  - intros S t t' Ft Ft' [H H']. apply HB in H. apply HA in H'. apply Finite_tx in Ft, Ft'. destruct Ft as [q Et], Ft' as [q' Et']. rewrite Et in H. rewrite Et' in H'.
    exact (slab_order_zero _ _ _ _ _ (F d) (V d) S (fun Z => proj1 (G d Z)) P (fun Z => proj2 (G d Z)) L1 L2 q q' (proj1 H) (proj2 H) (proj1 H') (proj2 H')).
Qed.
Section W2.
Context {A : arith}.
Notation L := (num_OrdLaws A).
Lemma cells2_hit (r : Ray2 (num A)) : Finite2 (r2_origin r) -> VFinite2 (r2_direction r) -> forall t b, Ordered2 b -> NotGrazing2 b r -> KdOk2 b t -> OffPlanes2 r t ->
  forall x, HitAt2 b r x <-> exists c, In c (cells2 b t) /\ HitAt2 c r x.
Proof.
  intros F V. induction t as [|d m lo IHl hi IHh]; intros b Ob G K P x.
  - cbn [cells2]. split; [intros H; exists b; split; [now left | exact H] | intros (c & [<-|[]] & H); exact H].
  - cbn [cells2]. destruct K as (L1 & L2 & Kl & Kh), P as (P & Pl & Ph). rewrite (C102_split_2d_pf A b r d m Ob F V G L1 L2 P x).
    rewrite (IHl (below2 b d m) (below2_ordered b d m Ob L1) (below2_grazing b r d m G P) Kl Pl x), (IHh (above2 b d m) (above2_ordered b d m Ob L2) (above2_grazing b r d m G P) Kh Ph x).
    split.
    + intros [(c & I & H)|(c & I & H)]; exists c; (split; [apply in_app_iff; tauto | exact H]).
    + intros (c & I & H). apply in_app_iff in I. destruct I as [I|I]; [left | right]; exists c; now split.
Qed.
Lemma walk2_perm (r : Ray2 (num A)) : Finite2 (r2_origin r) -> VFinite2 (r2_direction r) -> forall t b, Ordered2 b -> NotGrazing2 b r -> KdOk2 b t -> OffPlanes2 r t ->
  Permutation (walk2 r b t) (filter (hits2 r) (cells2 b t)).
Proof.
  intros F V. induction t as [|d m lo IHl hi IHh]; intros b Ob G K P.
  - cbn [cells2 walk2 filter]. destruct (hits2 r b); apply Permutation_refl.
  - cbn [walk2]. destruct (hits2 r b) eqn:Q.
    + cbn [cells2]. destruct K as (L1 & L2 & Kl & Kh), P as (P & Pl & Ph). rewrite filter_app.
      pose proof (IHl (below2 b d m) (below2_ordered b d m Ob L1) (below2_grazing b r d m G P) Kl Pl) as H1. pose proof (IHh (above2 b d m) (above2_ordered b d m Ob L2) (above2_grazing b r d m G P) Kh Ph) as H2.
      destruct (slt (v2_index (r2_direction r) d) szero).
      * eapply Permutation_trans; [apply Permutation_app_comm | now apply Permutation_app].
      * now apply Permutation_app.
    + assert (N : forall c, In c (cells2 b (Split2 d m lo hi)) -> hits2 r c = false).
      { intros c I. destruct (hits2 r c) eqn:E; [|reflexivity]. apply hits2_iff in E. destruct E as [x E]. assert (H : HitAt2 b r x) by (apply (cells2_hit r F V _ b Ob G K P); exists c; now split).
        assert (Q' : hits2 r b = true) by (apply hits2_iff; now exists x). congruence. }
      assert (E : filter (hits2 r) (cells2 b (Split2 d m lo hi)) = []) by (revert N; generalize (cells2 b (Split2 d m lo hi)); intros l; induction l as [|c l IH]; intros N; [reflexivity|]; cbn [filter]; rewrite (N c) by (now left); apply IH; intros c' I; apply N; now right).
      rewrite E. apply Permutation_refl.
Qed.
Lemma walk2_order (r : Ray2 (num A)) : Finite2 (r2_origin r) -> VFinite2 (r2_direction r) -> forall t b, Ordered2 b -> NotGrazing2 b r -> KdOk2 b t -> OffPlanes2 r t ->
  ForallOrdPairs (Before2 r) (walk2 r b t).
Proof.
  intros F V. induction t as [|d m lo IHl hi IHh]; intros b Ob G K P; cbn [walk2]; (destruct (hits2 r b); [|constructor]).
  - constructor; constructor.
  - destruct K as (L1 & L2 & Kl & Kh), P as (P & Pl & Ph). pose proof (below2_ordered b d m Ob L1) as Ol. pose proof (above2_ordered b d m Ob L2) as Oh. pose proof (below2_grazing b r d m G P) as Gl. pose proof (above2_grazing b r d m G P) as Gh.
    destruct (C102_order_2d_pf A b r d m Ob F V G L1 L2 P) as (H1 & H2 & H3).
    assert (Il : forall c x, In c (walk2 r (below2 b d m) lo) -> HitAt2 c r x -> HitAt2 (below2 b d m) r x).
    { intros c x I H. apply (Permutation_in _ (walk2_perm r F V lo _ Ol Gl Kl Pl)), filter_In in I. apply (cells2_hit r F V lo _ Ol Gl Kl Pl). exists c. tauto. }
    assert (Ih : forall c x, In c (walk2 r (above2 b d m) hi) -> HitAt2 c r x -> HitAt2 (above2 b d m) r x).
    { intros c x I H. apply (Permutation_in _ (walk2_perm r F V hi _ Oh Gh Kh Ph)), filter_In in I. apply (cells2_hit r F V hi _ Oh Gh Kh Ph). exists c. tauto. }
    assert (E : v2_index (r2_direction r) d = vcoord2 (r2_direction r) d) by (destruct d; reflexivity). rewrite E.
    assert (Fn : NoNaN (vcoord2 (r2_direction r) d)) by (pose proof (V d) as Q; apply Finite_tx in Q; destruct Q as [q Q]; apply NoNaN_tx; rewrite Q; discriminate).
    assert (Z0 : NoNaN (szero : num A)) by (apply NoNaN_tx; rewrite tx_0; discriminate).
    destruct (slt (vcoord2 (r2_direction r) d) szero) eqn:S.
    + apply fop_app; [now apply IHh | now apply IHl|]. intros a c Ia Ic x x' _ _ Hx Hx'. apply (H2 S); [now apply (Ih a) | now apply (Il c)].
    + apply fop_app; [now apply IHl | now apply IHh|]. intros a c Ia Ic x x' Fx Fx' Hx Hx'. apply (Il a) in Hx; [|exact Ia]. apply (Ih c) in Hx'; [|exact Ic].
      destruct (slt szero (vcoord2 (r2_direction r) d)) eqn:S'; [exact (H1 S' _ _ Hx Hx')|].
      exfalso. apply (H3 (proj2 (Eqs_iff L _ _) (conj (not_Lt_Le L _ _ Z0 Fn S') (not_Lt_Le L _ _ Fn Z0 S))) x x' Fx Fx'). now split.
Qed.
End W2.
Section W3.
Context {A : arith}.
Notation L := (num_OrdLaws A).
Lemma cells3_hit (r : Ray3 (num A)) : Finite3 (r3_origin r) -> VFinite3 (r3_direction r) -> forall t b, Ordered3 b -> NotGrazing3 b r -> KdOk3 b t -> OffPlanes3 r t ->
  forall x, HitAt3 b r x <-> exists c, In c (cells3 b t) /\ HitAt3 c r x.
Proof.
  intros F V. induction t as [|d m lo IHl hi IHh]; intros b Ob G K P x.
  - cbn [cells3]. split; [intros H; exists b; split; [now left | exact H] | intros (c & [<-|[]] & H); exact H].
  - cbn [cells3]. destruct K as (L1 & L2 & Kl & Kh), P as (P & Pl & Ph). rewrite (C102_split_3d_pf A b r d m Ob F V G L1 L2 P x).
    rewrite (IHl (below3 b d m) (below3_ordered b d m Ob L1) (below3_grazing b r d m G P) Kl Pl x), (IHh (above3 b d m) (above3_ordered b d m Ob L2) (above3_grazing b r d m G P) Kh Ph x).
    split.
    + intros [(c & I & H)|(c & I & H)]; exists c; (split; [apply in_app_iff; tauto | exact H]).
    + intros (c & I & H). apply in_app_iff in I. destruct I as [I|I]; [left | right]; exists c; now split.
Qed.
Lemma walk3_perm (r : Ray3 (num A)) : Finite3 (r3_origin r) -> VFinite3 (r3_direction r) -> forall t b, Ordered3 b -> NotGrazing3 b r -> KdOk3 b t -> OffPlanes3 r t ->
  Permutation (walk3 r b t) (filter (hits3 r) (cells3 b t)).
Proof.
  intros F V. induction t as [|d m lo IHl hi IHh]; intros b Ob G K P.
  - cbn [cells3 walk3 filter]. destruct (hits3 r b); apply Permutation_refl.
  - cbn [walk3]. destruct (hits3 r b) eqn:Q.
    + cbn [cells3]. destruct K as (L1 & L2 & Kl & Kh), P as (P & Pl & Ph). rewrite filter_app.
      pose proof (IHl (below3 b d m) (below3_ordered b d m Ob L1) (below3_grazing b r d m G P) Kl Pl) as H1. pose proof (IHh (above3 b d m) (above3_ordered b d m Ob L2) (above3_grazing b r d m G P) Kh Ph) as H2.
      destruct (slt (v3_index (r3_direction r) d) szero).
      * eapply Permutation_trans; [apply Permutation_app_comm | now apply Permutation_app].
      * now apply Permutation_app.
    + assert (N : forall c, In c (cells3 b (Split3 d m lo hi)) -> hits3 r c = false).
      { intros c I. destruct (hits3 r c) eqn:E; [|reflexivity]. apply hits3_iff in E. destruct E as [x E]. assert (H : HitAt3 b r x) by (apply (cells3_hit r F V _ b Ob G K P); exists c; now split).
        assert (Q' : hits3 r b = true) by (apply hits3_iff; now exists x). congruence. }
      assert (E : filter (hits3 r) (cells3 b (Split3 d m lo hi)) = []) by (revert N; generalize (cells3 b (Split3 d m lo hi)); intros l; induction l as [|c l IH]; intros N; [reflexivity|]; cbn [filter]; rewrite (N c) by (now left); apply IH; intros c' I; apply N; now right).
      rewrite E. apply Permutation_refl.
Qed.
Lemma walk3_order (r : Ray3 (num A)) : Finite3 (r3_origin r) -> VFinite3 (r3_direction r) -> forall t b, Ordered3 b -> NotGrazing3 b r -> KdOk3 b t -> OffPlanes3 r t ->
  ForallOrdPairs (Before3 r) (walk3 r b t).
Proof.
  intros F V. induction t as [|d m lo IHl hi IHh]; intros b Ob G K P; cbn [walk3]; (destruct (hits3 r b); [|constructor]).
  - constructor; constructor.
  - destruct K as (L1 & L2 & Kl & Kh), P as (P & Pl & Ph). pose proof (below3_ordered b d m Ob L1) as Ol. pose proof (above3_ordered b d m Ob L2) as Oh. pose proof (below3_grazing b r d m G P) as Gl. pose proof (above3_grazing b r d m G P) as Gh.
    destruct (C102_order_3d_pf A b r d m Ob F V G L1 L2 P) as (H1 & H2 & H3).
    assert (Il : forall c x, In c (walk3 r (below3 b d m) lo) -> HitAt3 c r x -> HitAt3 (below3 b d m) r x).
    { intros c x I H. apply (Permutation_in _ (walk3_perm r F V lo _ Ol Gl Kl Pl)), filter_In in I. apply (cells3_hit r F V lo _ Ol Gl Kl Pl). exists c. tauto. }
    assert (Ih : forall c x, In c (walk3 r (above3 b d m) hi) -> HitAt3 c r x -> HitAt3 (above3 b d m) r x).
    { intros c x I H. apply (Permutation_in _ (walk3_perm r F V hi _ Oh Gh Kh Ph)), filter_In in I. apply (cells3_hit r F V hi _ Oh Gh Kh Ph). exists c. tauto. }
    assert (E : v3_index (r3_direction r) d = vcoord3 (r3_direction r) d) by (destruct d; reflexivity). rewrite E.
    assert (Fn : NoNaN (vcoord3 (r3_direction r) d)) by (pose proof (V d) as Q; apply Finite_tx in Q; destruct Q as [q Q]; apply NoNaN_tx; rewrite Q; discriminate).
    assert (Z0 : NoNaN (szero : num A)) by (apply NoNaN_tx; rewrite tx_0; discriminate).
    destruct (slt (vcoord3 (r3_direction r) d) szero) eqn:S.
    + apply fop_app; [now apply IHh | now apply IHl|]. intros a c Ia Ic x x' _ _ Hx Hx'. apply (H2 S); [now apply (Ih a) | now apply (Il c)].
    + apply fop_app; [now apply IHl | now apply IHh|]. intros a c Ia Ic x x' Fx Fx' Hx Hx'. apply (Il a) in Hx; [|exact Ia]. apply (Ih c) in Hx'; [|exact Ic].
      destruct (slt szero (vcoord3 (r3_direction r) d)) eqn:S'; [exact (H1 S' _ _ Hx Hx')|].
      exfalso. apply (H3 (proj2 (Eqs_iff L _ _) (conj (not_Lt_Le L _ _ Z0 Fn S') (not_Lt_Le L _ _ Fn Z0 S))) x x' Fx Fx'). now split.
Qed.
End W3.
Lemma C102_walk_complete_2d_pf : forall (A : arith) (t : kd2 (num A)) (b : BoundingBox2 (num A)) (r : Ray2 (num A)), Ordered2 b -> Finite2 (r2_origin r) -> VFinite2 (r2_direction r) -> NotGrazing2 b r ->
  KdOk2 b t -> OffPlanes2 r t -> Permutation (walk2 r b t) (filter (hits2 r) (cells2 b t)).
Proof.
  intros A t b r Ob F V G K P. now apply walk2_perm.
Qed.
Lemma C102_walk_complete_3d_pf : forall (A : arith) (t : kd3 (num A)) (b : BoundingBox3 (num A)) (r : Ray3 (num A)), Ordered3 b -> Finite3 (r3_origin r) -> VFinite3 (r3_direction r) -> NotGrazing3 b r ->
  KdOk3 b t -> OffPlanes3 r t -> Permutation (walk3 r b t) (filter (hits3 r) (cells3 b t)).
Proof.
  intros A t b r Ob F V G K P. now apply walk3_perm.
Qed.
Lemma C102_walk_covers_2d_pf : forall (A : arith) (t : kd2 (num A)) (b : BoundingBox2 (num A)) (r : Ray2 (num A)), Ordered2 b -> Finite2 (r2_origin r) -> VFinite2 (r2_direction r) -> NotGrazing2 b r ->
  KdOk2 b t -> OffPlanes2 r t -> forall x, HitAt2 b r x <-> exists c, In c (walk2 r b t) /\ HitAt2 c r x.
Proof.
  intros A t b r Ob F V G K P x. rewrite (cells2_hit r F V t b Ob G K P x). pose proof (walk2_perm r F V t b Ob G K P) as W. split; intros (c & I & H); exists c; (split; [|exact H]).
  - apply (Permutation_in _ (Permutation_sym W)), filter_In. split; [exact I|]. apply hits2_iff. now exists x.
  - apply (Permutation_in _ W), filter_In in I. tauto.
Qed.
Lemma C102_walk_covers_3d_pf : forall (A : arith) (t : kd3 (num A)) (b : BoundingBox3 (num A)) (r : Ray3 (num A)), Ordered3 b -> Finite3 (r3_origin r) -> VFinite3 (r3_direction r) -> NotGrazing3 b r ->
  KdOk3 b t -> OffPlanes3 r t -> forall x, HitAt3 b r x <-> exists c, In c (walk3 r b t) /\ HitAt3 c r x.
Proof.
  intros A t b r Ob F V G K P x. rewrite (cells3_hit r F V t b Ob G K P x). pose proof (walk3_perm r F V t b Ob G K P) as W. split; intros (c & I & H); exists c; (split; [|exact H]).
  - apply (Permutation_in _ (Permutation_sym W)), filter_In. split; [exact I|]. apply hits3_iff. now exists x.
  - apply (Permutation_in _ W), filter_In in I. tauto.
Qed.
Lemma C102_walk_in_order_2d_pf : forall (A : arith) (t : kd2 (num A)) (b : BoundingBox2 (num A)) (r : Ray2 (num A)), Ordered2 b -> Finite2 (r2_origin r) -> VFinite2 (r2_direction r) -> NotGrazing2 b r ->
  KdOk2 b t -> OffPlanes2 r t -> ForallOrdPairs (Before2 r) (walk2 r b t).
Proof.
  intros A t b r Ob F V G K P. now apply walk2_order.
Qed.
Lemma C102_walk_in_order_3d_pf : forall (A : arith) (t : kd3 (num A)) (b : BoundingBox3 (num A)) (r : Ray3 (num A)), Ordered3 b -> Finite3 (r3_origin r) -> VFinite3 (r3_direction r) -> NotGrazing3 b r ->
  KdOk3 b t -> OffPlanes3 r t -> ForallOrdPairs (Before3 r) (walk3 r b t).
Proof.
  intros A t b r Ob F V G K P. now apply walk3_order.
Qed.
Lemma C102_ray_in_the_cut_is_lost_pf : let b := mkBB2 (mkPoint2 (d64 0 0) (d64 0 0)) (mkPoint2 (d64 2 0) (d64 2 0)) in
  let r := mkRay2 (mkPoint2 (d64 1 0) (nd64 1 0)) (mkVector2 (d64 0 0) (d64 1 0)) in
  Ordered2 b /\ Finite2 (r2_origin r) /\ VFinite2 (r2_direction r) /\ NotGrazing2 b r /\ hits2 r b = true /\ hits2 r (below2 b D2X (d64 1 0)) = false /\ hits2 r (above2 b D2X (d64 1 0)) = false.
Proof.
  cbv zeta. conjs; try (intros []; vm_compute; reflexivity); try (vm_compute; reflexivity). intros [] K; vm_compute in K; try discriminate K; split; vm_compute; discriminate.
Qed.
Lemma C102_infinite_parameters_out_of_order_pf : let b := mkBB2 (mkPoint2 (d64 0 0) (d64 0 0)) (mkPoint2 (d64 4 0) (d64 4 0)) in
  let r := mkRay2 (mkPoint2 (d64 3 0) (d64 1 0)) (mkVector2 (sneg (d64 0 0)) (d64 0 0)) in
  Ordered2 b /\ Finite2 (r2_origin r) /\ VFinite2 (r2_direction r) /\ NotGrazing2 b r /\ HitAt2 (below2 b D2X (d64 2 0)) r sinf /\ HitAt2 (above2 b D2X (d64 2 0)) r (d64 0 0).
Proof.
  cbv zeta. assert (H : forall (b : BoundingBox2 (num A64)) (r : Ray2 (num A64)) t, match bb2_intersect_ray b r with Some (s, e) => sle s t && sle t e | None => false end = true -> HitAt2 b r t).
  { intros b r t. unfold HitAt2. destruct (bb2_intersect_ray b r) as [[s e]|]; [|discriminate]. intros K. apply andb_true_iff in K. exists s, e. now split. }
  conjs; try (intros []; vm_compute; reflexivity); try (apply H; vm_compute; reflexivity). intros [] K; vm_compute in K; try discriminate K; split; vm_compute; discriminate.
Qed.
