(** Proofs: clipping a ray by two boxes (C92). *)
From Coq Require Import Bool NArith ZArith Reals List Lra Lia.
From Flocq Require Import Core.Zaux Core.Raux.
From Verif Require Import Scalar Types Vector2 Vector3 Point2 Point3 Ray BoundingBox2 BoundingBox3 Float
  XReal OrdLaws Arith SpecOrder SpecFloat SpecSame SpecClip OrderProofs OrderBox FloatX XArith FloatLaws SlabBase FloatRay FloatSym ExVals ErrBase.
Import ListNotations.
Local Open Scope R_scope.
Lemma xle_n1 a b : xle a b = true -> xnan a = false. Proof. destruct a, b; cbn; congruence. Qed.
Lemma xle_n2 a b : xle a b = true -> xnan b = false. Proof. destruct a, b; cbn; congruence. Qed.
Lemma xmax_le a b t : xnan a = false -> xnan b = false -> (xle (xmax a b) t = true <-> xle a t = true /\ xle b t = true).
Proof.
  intros Na Nb. unfold xmax. rewrite Na, Nb. destruct (xle a b) eqn:Q.
  - split; [intros H; split; [eapply xle_trans; eassumption | assumption] | tauto].
  - destruct (xle_total a b Na Nb) as [K|K]; [congruence|]. split; [intros H; split; [assumption | eapply xle_trans; eassumption] | tauto].
Qed.
Lemma xmin_ge a b t : xnan a = false -> xnan b = false -> (xle t (xmin a b) = true <-> xle t a = true /\ xle t b = true).
Proof.
  intros Na Nb. unfold xmin. rewrite Na, Nb. destruct (xle a b) eqn:Q.
  - split; [intros H; split; [assumption | eapply xle_trans; eassumption] | tauto].
  - destruct (xle_total a b Na Nb) as [K|K]; [congruence|]. split; [intros H; split; [eapply xle_trans; eassumption | assumption] | tauto].
Qed.
Lemma xmin_l a b : xle a b = true -> xmin a b = a.
Proof. intros H. unfold xmin. now rewrite (xle_n1 _ _ H), (xle_n2 _ _ H), H. Qed.
Lemma xmax_r a b : xle a b = true -> xmax a b = b.
Proof. intros H. unfold xmax. now rewrite (xle_n1 _ _ H), (xle_n2 _ _ H), H. Qed.
Lemma xle_anti a b : xle a b = true -> xle b a = true -> a = b.
Proof. intros H K. apply xeq_eq. unfold xeq. now rewrite H, K. Qed.
Lemma xmin_r a b : xle b a = true -> xmin a b = b.
Proof. intros H. unfold xmin. rewrite (xle_n1 _ _ H), (xle_n2 _ _ H). destruct (xle a b) eqn:Q; [now apply xle_anti | reflexivity]. Qed.
Lemma xmax_l a b : xle b a = true -> xmax a b = a.
Proof. intros H. unfold xmax. rewrite (xle_n1 _ _ H), (xle_n2 _ _ H). destruct (xle a b) eqn:Q; [now apply xle_anti | reflexivity]. Qed.
Section A.
Context {A : arith}.
Implicit Types x y o : num A.
(* the quotient (x - o) / d is a monotone function of x *)
Lemma quo_dir o (d : num A) : Finite o -> Finite d -> exists (F : xreal -> xreal) (up : bool), (forall x, tx (sdiv (ssub x o) d) = F (tx x)) /\
  forall x y, (Eqs d szero -> ~ Eqs o x) -> (Eqs d szero -> ~ Eqs o y) -> Le x y ->
    if up then xle (F (tx x)) (F (tx y)) = true else xle (F (tx y)) (F (tx x)) = true.
Proof.
  intros Fo Fd. apply Finite_tx in Fo, Fd. destruct Fo as [r Eo], Fd as [a Ed].
  destruct (Rtotal_order a 0) as [N|[->|N]].
  - exists (fun X => xr A (xdiv (xr A (xsub X (Fin r))) (Fin a))), false.
    assert (E : forall x, tx (sdiv (ssub x o) d) = xr A (xdiv (xr A (xsub (tx x) (Fin r))) (Fin a))).
    { intros x. rewrite tx_div by (rewrite Ed; intros K; injection K; lra). now rewrite tx_sub, Eo, Ed. }
    split; [exact E|]. intros x y _ _ H. rewrite <- !E. apply Le_tx. exact (quo_mono_neg x y o d a r Eo Ed N H).
  - destruct (div_zero d Ed) as [b D]. exists (fun X => zq b (xr A (xsub X (Fin r)))), b.
    assert (E : forall x, tx (sdiv (ssub x o) d) = zq b (xr A (xsub (tx x) (Fin r)))) by (intros x; now rewrite D, tx_sub, Eo).
    split; [exact E|]. intros x y Sx Sy H. rewrite <- !E.
    assert (Q : Eqs d szero) by (apply Eqs_tx; rewrite Ed, tx_0; split; [reflexivity | discriminate]). specialize (Sx Q). specialize (Sy Q).
    pose proof (num_OrdLaws A) as L. pose proof (Le_nan L _ _ H) as [Nx Ny]. assert (No : NoNaN o) by (apply NoNaN_tx; rewrite Eo; discriminate).
    assert (T : forall z, NoNaN z -> ~ Eqs o z -> tx (sdiv (ssub z o) d) = (if b then PInf else NInf) /\ Lt o z \/ tx (sdiv (ssub z o) d) = (if b then NInf else PInf) /\ Lt z o).
    { intros z Nz Ez. destruct (Le_total L o z No Nz) as [K|K].
      - left. assert (LT : Lt o z) by (apply (Lt_iff L); repeat split; try assumption; intros K'; apply Ez; apply (Eqs_iff L); split; assumption). split; [|exact LT].
        apply Lt_tx in LT. rewrite Eo in LT. rewrite D. apply zq_pos. now apply sub_pos with r.
      - right. assert (LT : Lt z o) by (apply (Lt_iff L); repeat split; try assumption; intros K'; apply Ez; apply (Eqs_iff L); split; assumption). split; [|exact LT].
        apply Lt_tx in LT. rewrite Eo in LT. rewrite D. apply zq_neg. now apply sub_neg with r. }
    destruct (T x Nx Sx) as [[-> K1]|[-> K1]], (T y Ny Sy) as [[-> K2]|[-> K2]]; destruct b; try reflexivity; exfalso;
      apply (Lt_iff L) in K1, K2; destruct K1 as (_ & _ & K1), K2 as (_ & _ & K2); destruct (Le_total L x o Nx No); try tauto; apply K2, (Le_trans L) with x; try assumption;
      destruct (Le_total L o x No Nx); tauto.
  - exists (fun X => xr A (xdiv (xr A (xsub X (Fin r))) (Fin a))), true.
    assert (E : forall x, tx (sdiv (ssub x o) d) = xr A (xdiv (xr A (xsub (tx x) (Fin r))) (Fin a))).
    { intros x. rewrite tx_div by (rewrite Ed; intros K; injection K; lra). now rewrite tx_sub, Eo, Ed. }
    split; [exact E|]. intros x y _ _ H. rewrite <- !E. apply Le_tx. exact (quo_mono_pos x y o d a r Eo Ed N H).
Qed.
Definition ok o (d : num A) x : Prop := Eqs d szero -> ~ Eqs o x.
(* one axis: the slab of the intersection *)
Lemma slab_clip la ha lb hb lc hc o (d : num A) : Finite o -> Finite d -> ok o d la -> ok o d ha -> ok o d lb -> ok o d hb -> Le la ha -> Le lb hb -> Le la hb -> Le lb ha ->
  tx lc = xmax (tx la) (tx lb) -> tx hc = xmin (tx ha) (tx hb) ->
  (xnan (tx (near la ha o d)) = false /\ xnan (tx (far la ha o d)) = false) /\ (xnan (tx (near lb hb o d)) = false /\ xnan (tx (far lb hb o d)) = false) /\
  (xnan (tx (near lc hc o d)) = false /\ xnan (tx (far lc hc o d)) = false) /\
  (forall t, xle (tx (near lc hc o d)) t = true <-> xle (tx (near la ha o d)) t = true /\ xle (tx (near lb hb o d)) t = true) /\
  (forall t, xle t (tx (far lc hc o d)) = true <-> xle t (tx (far la ha o d)) = true /\ xle t (tx (far lb hb o d)) = true).
Proof.
  intros Fo Fd Oa Oa' Ob Ob' La Lb L1 L2 Ec Ec'. destruct (quo_dir o d Fo Fd) as (F & up & E & M). unfold near, far.
  rewrite !tx_smin, !tx_smax, !E, Ec, Ec'. pose proof (num_OrdLaws A) as L.
  assert (Hl : Le la lb /\ xmax (tx la) (tx lb) = tx lb \/ Le lb la /\ xmax (tx la) (tx lb) = tx la).
  { pose proof (Le_nan L _ _ La) as [N1 _]. pose proof (Le_nan L _ _ Lb) as [N2 _]. destruct (Le_total L la lb N1 N2) as [K|K]; [left | right]; (split; [exact K|]); apply Le_tx in K; [now apply xmax_r | now apply xmax_l]. }
  assert (Hh : Le ha hb /\ xmin (tx ha) (tx hb) = tx ha \/ Le hb ha /\ xmin (tx ha) (tx hb) = tx hb).
  { pose proof (Le_nan L _ _ La) as [_ N1]. pose proof (Le_nan L _ _ Lb) as [_ N2]. destruct (Le_total L ha hb N1 N2) as [K|K]; [left | right]; (split; [exact K|]); apply Le_tx in K; [now apply xmin_l | now apply xmin_r]. }
  assert (W : forall p q r : xreal, xle p q = true -> forall t, (xle q t = true <-> xle p t = true /\ xle q t = true) /\ (xle q t = true <-> xle q t = true /\ xle p t = true) /\ (xle t p = true <-> xle t p = true /\ xle t q = true) /\ (xle t p = true <-> xle t q = true /\ xle t p = true)).
  { intros p q _ K t. split; [|split; [|split]]; (split; [intros H; split; try assumption; eapply xle_trans; eassumption | tauto]). }
  destruct up.
  - rewrite (xmin_l (F (tx la))), (xmax_r (F (tx la))), (xmin_l (F (tx lb))), (xmax_r (F (tx lb))) by (apply M; assumption).
    assert (X : xle (F (xmax (tx la) (tx lb))) (F (xmin (tx ha) (tx hb))) = true) by (destruct Hl as [[_ ->]|[_ ->]], Hh as [[_ ->]|[_ ->]]; apply M; assumption).
    rewrite (xmin_l _ _ X), (xmax_r _ _ X). pose proof (M la ha Oa Oa' La) as Ma. pose proof (M lb hb Ob Ob' Lb) as Mb. cbv iota in Ma, Mb.
    split; [split; [exact (xle_n1 _ _ Ma) | exact (xle_n2 _ _ Ma)]|]. split; [split; [exact (xle_n1 _ _ Mb) | exact (xle_n2 _ _ Mb)]|]. split; [split; [exact (xle_n1 _ _ X) | exact (xle_n2 _ _ X)]|]. clear X.
    split; intros t; [destruct Hl as [[K ->]|[K ->]] | destruct Hh as [[K ->]|[K ->]]]; apply M in K; try assumption; cbv iota in K; destruct (W _ _ (Fin 0) K t) as (W1 & W2 & W3 & W4); assumption.
  - rewrite (xmin_r (F (tx la))), (xmax_l (F (tx la))), (xmin_r (F (tx lb))), (xmax_l (F (tx lb))) by (apply M; assumption).
    assert (X : xle (F (xmin (tx ha) (tx hb))) (F (xmax (tx la) (tx lb))) = true) by (destruct Hl as [[_ ->]|[_ ->]], Hh as [[_ ->]|[_ ->]]; apply M; assumption).
    rewrite (xmin_r _ _ X), (xmax_l _ _ X). pose proof (M la ha Oa Oa' La) as Ma. pose proof (M lb hb Ob Ob' Lb) as Mb. cbv iota in Ma, Mb.
    split; [split; [exact (xle_n1 _ _ Ma) | exact (xle_n2 _ _ Ma)]|]. split; [split; [exact (xle_n1 _ _ Mb) | exact (xle_n2 _ _ Mb)]|]. split; [split; [exact (xle_n1 _ _ X) | exact (xle_n2 _ _ X)]|]. clear X.
    split; intros t; [destruct Hh as [[K ->]|[K ->]] | destruct Hl as [[K ->]|[K ->]]]; apply M in K; try assumption; cbv iota in K; destruct (W _ _ (Fin 0) K t) as (W1 & W2 & W3 & W4); assumption.
Qed.
(* one axis: separated slabs share at most one parameter *)
Lemma slab_apart la ha lb hb o (d : num A) : Finite o -> Finite d -> ok o d la -> ok o d ha -> ok o d lb -> ok o d hb -> Le la ha -> Le lb hb -> Le hb la ->
  exists q, forall t, xle (tx (near la ha o d)) t = true -> xle t (tx (far la ha o d)) = true -> xle (tx (near lb hb o d)) t = true -> xle t (tx (far lb hb o d)) = true -> t = q.
Proof.
  intros Fo Fd Oa Oa' Ob Ob' La Lb K. destruct (quo_dir o d Fo Fd) as (F & up & E & M). unfold near, far. rewrite !tx_smin, !tx_smax, !E.
  exists (F (tx la)). intros t. destruct up.
  - rewrite (xmin_l (F (tx la))), (xmax_r (F (tx la))), (xmin_l (F (tx lb))), (xmax_r (F (tx lb))) by (apply M; assumption). intros H1 _ _ H2. apply xle_anti; [|assumption]. eapply xle_trans; [exact H2 | exact (M hb la Ob' Oa K)].
  - rewrite (xmin_r (F (tx la))), (xmax_l (F (tx la))), (xmin_r (F (tx lb))), (xmax_l (F (tx lb))) by (apply M; assumption). intros _ H1 H2 _. apply xle_anti; [assumption|]. eapply xle_trans; [exact (M hb la Ob' Oa K) | exact H2].
Qed.
Lemma slab_num la ha o (d : num A) : Finite o -> Finite d -> ok o d la -> ok o d ha -> Le la ha -> xnan (tx (near la ha o d)) = false /\ xnan (tx (far la ha o d)) = false.
Proof.
  intros Fo Fd Oa Oa' La. destruct (quo_dir o d Fo Fd) as (F & up & E & M). unfold near, far. rewrite tx_smin, tx_smax, !E. pose proof (M la ha Oa Oa' La) as K. destruct up.
  - rewrite (xmin_l _ _ K), (xmax_r _ _ K). split; [exact (xle_n1 _ _ K) | exact (xle_n2 _ _ K)].
  - rewrite (xmin_r _ _ K), (xmax_l _ _ K). split; [exact (xle_n1 _ _ K) | exact (xle_n2 _ _ K)].
Qed.
Lemma hit2_iff (b : BoundingBox2 (num A)) (r : Ray2 (num A)) (t : num A) : NoNaN t -> (forall d : Dimension2, xnan (NR2 b r d) = false) -> (forall d : Dimension2, xnan (FR2 b r d) = false) ->
  (HitAt2 b r t <-> Le szero t /\ forall d0, xle (NR2 b r d0) (tx t) = true /\ xle (tx t) (FR2 b r d0) = true).
Proof.
  intros Nt N1 N2. assert (K : HitAt2 b r t <-> xle (S2 b r) (tx t) = true /\ xle (tx t) (E2 b r) = true).
  { pose proof (ray_xres2 b r) as X. unfold HitAt2. split.
    - intros (s & e & H & H1 & H2). rewrite H in X. destruct X as (_ & <- & <-). apply Le_tx in H1, H2. now split.
    - intros [H1 H2]. destruct (bb2_intersect_ray b r) as [[s e]|]; cbn [xres] in X.
      + destruct X as (_ & X1 & X2). exists s, e. split; [reflexivity|]. rewrite <- X1 in H1. rewrite <- X2 in H2. split; apply Le_tx; assumption.
      + rewrite (xle_trans _ _ _ H1 H2) in X. discriminate. }
  rewrite K. clear K. unfold S2, E2. rewrite !xmax_le, !xmin_ge by first [reflexivity | apply N1 | apply N2 | apply xmax_num; reflexivity | apply xmin_num; reflexivity].
  assert (Z : Le szero t <-> xle (Fin 0) (tx t) = true) by (rewrite Le_tx, tx_0; tauto). rewrite Z.
  assert (P : xle (tx t) PInf = true) by (apply NoNaN_tx in Nt; destruct (tx t); try reflexivity; congruence).
  split; [intros [[[H1 H2] H3] [[H4 H5] H6]]; split; [assumption|]; intros []; split; assumption | intros [H H']; split; split; try split; try assumption; apply H'].
Qed.
Lemma hit3_iff (b : BoundingBox3 (num A)) (r : Ray3 (num A)) (t : num A) : NoNaN t -> (forall d : Dimension3, xnan (NR3 b r d) = false) -> (forall d : Dimension3, xnan (FR3 b r d) = false) ->
  (HitAt3 b r t <-> Le szero t /\ forall d0, xle (NR3 b r d0) (tx t) = true /\ xle (tx t) (FR3 b r d0) = true).
Proof.
  intros Nt N1 N2. assert (K : HitAt3 b r t <-> xle (S3 b r) (tx t) = true /\ xle (tx t) (E3 b r) = true).
  { pose proof (ray_xres3 b r) as X. unfold HitAt3. split.
    - intros (s & e & H & H1 & H2). rewrite H in X. destruct X as (_ & <- & <-). apply Le_tx in H1, H2. now split.
    - intros [H1 H2]. destruct (bb3_intersect_ray b r) as [[s e]|]; cbn [xres] in X.
      + destruct X as (_ & X1 & X2). exists s, e. split; [reflexivity|]. rewrite <- X1 in H1. rewrite <- X2 in H2. split; apply Le_tx; assumption.
      + rewrite (xle_trans _ _ _ H1 H2) in X. discriminate. }
  rewrite K. clear K. unfold S3, E3. rewrite !xmax_le, !xmin_ge by first [reflexivity | apply N1 | apply N2 | apply xmax_num; reflexivity | apply xmin_num; reflexivity | apply xmax_num, xmax_num; reflexivity | apply xmin_num, xmin_num; reflexivity].
  assert (Z : Le szero t <-> xle (Fin 0) (tx t) = true) by (rewrite Le_tx, tx_0; tauto). rewrite Z.
  assert (P : xle (tx t) PInf = true) by (apply NoNaN_tx in Nt; destruct (tx t); try reflexivity; congruence).
  split; [intros [[[[H1 H2] H3] H3'] [[[H4 H5] H6] H6']]; split; [assumption|]; intros []; split; assumption | intros [H H']; repeat split; try assumption; apply H'].
Qed.
End A.
Section M2.
Context {A : arith}.
Lemma hit2_nan (b : BoundingBox2 (num A)) r t : HitAt2 b r t -> NoNaN t.
Proof. intros (s & e & _ & H & _). exact (proj2 (Le_nan (num_OrdLaws A) _ _ H)). Qed.
Lemma num2 (b : BoundingBox2 (num A)) (r : Ray2 (num A)) : Ordered2 b -> Finite2 (r2_origin r) -> VFinite2 (r2_direction r) -> NotGrazing2 b r ->
  (forall d, xnan (NR2 b r d) = false) /\ (forall d, xnan (FR2 b r d) = false).
Proof.
  intros O F V G. split; intros d; apply (slab_num (coord2 (bb2_min b) d) (coord2 (bb2_max b) d) _ _ (F d) (V d)); try exact (O d); intros Z; now apply (G d Z).
Qed.
Lemma clip_coord2 (a b c : BoundingBox2 (num A)) : Ordered2 a -> Ordered2 b -> bb2_intersect a b = Some c -> forall d,
  Le (coord2 (bb2_min a) d) (coord2 (bb2_max b) d) /\ Le (coord2 (bb2_min b) d) (coord2 (bb2_max a) d) /\
  tx (coord2 (bb2_min c) d) = xmax (tx (coord2 (bb2_min a) d)) (tx (coord2 (bb2_min b) d)) /\ tx (coord2 (bb2_max c) d) = xmin (tx (coord2 (bb2_max a) d)) (tx (coord2 (bb2_max b) d)).
Proof.
  intros Oa Ob. unfold bb2_intersect. destruct (bb2_overlaps a b) eqn:V; [|discriminate]. intros H. injection H as <-. unfold bb2_overlaps in V. rewrite !andb_true_iff in V.
  assert (K : forall d, Le (coord2 (bb2_min a) d) (coord2 (bb2_max b) d) /\ Le (coord2 (bb2_min b) d) (coord2 (bb2_max a) d)) by (intros []; cbn [coord2]; unfold Le in *; tauto).
  intros d. destruct (K d) as [K1 K2]. split; [exact K1|]. split; [exact K2|]. pose proof (Oa d) as Ka. pose proof (Ob d) as Kb. apply Le_tx in K1, K2, Ka, Kb. clear K V Oa Ob.
  set (la := tx (coord2 (bb2_min a) d)) in *. set (ha := tx (coord2 (bb2_max a) d)) in *. set (lb := tx (coord2 (bb2_min b) d)) in *. set (hb := tx (coord2 (bb2_max b) d)) in *.
  assert (X : xle (xmax la lb) (xmin ha hb) = true).
  { apply xmax_le; [exact (xle_n1 _ _ Ka) | exact (xle_n1 _ _ Kb)|]. split; apply xmin_ge; try exact (xle_n2 _ _ Ka); try exact (xle_n2 _ _ Kb); split; assumption. }
  split.
  - transitivity (xmin (xmax la lb) (xmin ha hb)); [|now apply xmin_l]. unfold la, ha, lb, hb. rewrite <- tx_smax, <- !tx_smin. destruct d; reflexivity.
  - transitivity (xmax (xmax la lb) (xmin ha hb)); [|now apply xmax_r]. unfold la, ha, lb, hb. rewrite <- tx_smin, <- !tx_smax. destruct d; reflexivity.
Qed.
End M2.
Section M3.
Context {A : arith}.
Lemma hit3_nan (b : BoundingBox3 (num A)) r t : HitAt3 b r t -> NoNaN t.
Proof. intros (s & e & _ & H & _). exact (proj2 (Le_nan (num_OrdLaws A) _ _ H)). Qed.
Lemma num3 (b : BoundingBox3 (num A)) (r : Ray3 (num A)) : Ordered3 b -> Finite3 (r3_origin r) -> VFinite3 (r3_direction r) -> NotGrazing3 b r ->
  (forall d, xnan (NR3 b r d) = false) /\ (forall d, xnan (FR3 b r d) = false).
Proof.
  intros O F V G. split; intros d; apply (slab_num (coord3 (bb3_min b) d) (coord3 (bb3_max b) d) _ _ (F d) (V d)); try exact (O d); intros Z; now apply (G d Z).
Qed.
Lemma clip_coord3 (a b c : BoundingBox3 (num A)) : Ordered3 a -> Ordered3 b -> bb3_intersect a b = Some c -> forall d,
  Le (coord3 (bb3_min a) d) (coord3 (bb3_max b) d) /\ Le (coord3 (bb3_min b) d) (coord3 (bb3_max a) d) /\
  tx (coord3 (bb3_min c) d) = xmax (tx (coord3 (bb3_min a) d)) (tx (coord3 (bb3_min b) d)) /\ tx (coord3 (bb3_max c) d) = xmin (tx (coord3 (bb3_max a) d)) (tx (coord3 (bb3_max b) d)).
Proof.
  intros Oa Ob. unfold bb3_intersect. destruct (bb3_overlaps a b) eqn:V; [|discriminate]. intros H. injection H as <-. unfold bb3_overlaps in V. rewrite !andb_true_iff in V.
  assert (K : forall d, Le (coord3 (bb3_min a) d) (coord3 (bb3_max b) d) /\ Le (coord3 (bb3_min b) d) (coord3 (bb3_max a) d)) by (intros []; cbn [coord3]; unfold Le in *; tauto).
  intros d. destruct (K d) as [K1 K2]. split; [exact K1|]. split; [exact K2|]. pose proof (Oa d) as Ka. pose proof (Ob d) as Kb. apply Le_tx in K1, K2, Ka, Kb. clear K V Oa Ob.
  set (la := tx (coord3 (bb3_min a) d)) in *. set (ha := tx (coord3 (bb3_max a) d)) in *. set (lb := tx (coord3 (bb3_min b) d)) in *. set (hb := tx (coord3 (bb3_max b) d)) in *.
  assert (X : xle (xmax la lb) (xmin ha hb) = true).
  { apply xmax_le; [exact (xle_n1 _ _ Ka) | exact (xle_n1 _ _ Kb)|]. split; apply xmin_ge; try exact (xle_n2 _ _ Ka); try exact (xle_n2 _ _ Kb); split; assumption. }
  split.
  - transitivity (xmin (xmax la lb) (xmin ha hb)); [|now apply xmin_l]. unfold la, ha, lb, hb. rewrite <- tx_smax, <- !tx_smin. destruct d; reflexivity.
  - transitivity (xmax (xmax la lb) (xmin ha hb)); [|now apply xmax_r]. unfold la, ha, lb, hb. rewrite <- tx_smin, <- !tx_smax. destruct d; reflexivity.
Qed.
End M3.
Lemma C92_clip_2d_pf : forall (A : arith) (a b c : BoundingBox2 (num A)) (r : Ray2 (num A)), Ordered2 a -> Ordered2 b -> Finite2 (r2_origin r) -> VFinite2 (r2_direction r) -> NotGrazing2 a r -> NotGrazing2 b r ->
  bb2_intersect a b = Some c -> forall t, HitAt2 c r t <-> HitAt2 a r t /\ HitAt2 b r t.
Proof.
  intros A a b c r Oa Ob F V Ga Gb I t.
  assert (K : forall d, _) by (intros d; destruct (clip_coord2 a b c Oa Ob I d) as (L1 & L2 & E1 & E2); exact (slab_clip _ _ _ _ _ _ _ _ (F d) (V d) (fun Z => proj1 (Ga d Z)) (fun Z => proj2 (Ga d Z)) (fun Z => proj1 (Gb d Z)) (fun Z => proj2 (Gb d Z)) (Oa d) (Ob d) L1 L2 E1 E2)).
  destruct (NoNaN_dec t) as [Nt|Nt]; [|split; [intros H; elim Nt; exact (hit2_nan _ _ _ H) | intros [H _]; elim Nt; exact (hit2_nan _ _ _ H)]].
  destruct (num2 a r Oa F V Ga) as [A1 A2]. destruct (num2 b r Ob F V Gb) as [B1 B2].
  rewrite !hit2_iff; try assumption; try (intros d; apply (K d)). unfold NR2, FR2. split.
  - intros [Z H]. split; (split; [exact Z|]); intros d; destruct (K d) as (_ & _ & _ & K1 & K2); destruct (H d) as [H1 H2]; apply K1 in H1; apply K2 in H2; tauto.
  - intros [[Z H] [_ H']]. split; [exact Z|]. intros d. destruct (K d) as (_ & _ & _ & K1 & K2). destruct (H d) as [H1 H2], (H' d) as [H3 H4]. split; [apply K1 | apply K2]; tauto.
Qed.
Lemma C92_clip_3d_pf : forall (A : arith) (a b c : BoundingBox3 (num A)) (r : Ray3 (num A)), Ordered3 a -> Ordered3 b -> Finite3 (r3_origin r) -> VFinite3 (r3_direction r) -> NotGrazing3 a r -> NotGrazing3 b r ->
  bb3_intersect a b = Some c -> forall t, HitAt3 c r t <-> HitAt3 a r t /\ HitAt3 b r t.
Proof.
  intros A a b c r Oa Ob F V Ga Gb I t.
  assert (K : forall d, _) by (intros d; destruct (clip_coord3 a b c Oa Ob I d) as (L1 & L2 & E1 & E2); exact (slab_clip _ _ _ _ _ _ _ _ (F d) (V d) (fun Z => proj1 (Ga d Z)) (fun Z => proj2 (Ga d Z)) (fun Z => proj1 (Gb d Z)) (fun Z => proj2 (Gb d Z)) (Oa d) (Ob d) L1 L2 E1 E2)).
  destruct (NoNaN_dec t) as [Nt|Nt]; [|split; [intros H; elim Nt; exact (hit3_nan _ _ _ H) | intros [H _]; elim Nt; exact (hit3_nan _ _ _ H)]].
  destruct (num3 a r Oa F V Ga) as [A1 A2]. destruct (num3 b r Ob F V Gb) as [B1 B2].
  rewrite !hit3_iff; try assumption; try (intros d; apply (K d)). unfold NR3, FR3. split.
  - intros [Z H]. split; (split; [exact Z|]); intros d; destruct (K d) as (_ & _ & _ & K1 & K2); destruct (H d) as [H1 H2]; apply K1 in H1; apply K2 in H2; tauto.
  - intros [[Z H] [_ H']]. split; [exact Z|]. intros d. destruct (K d) as (_ & _ & _ & K1 & K2). destruct (H d) as [H1 H2], (H' d) as [H3 H4]. split; [apply K1 | apply K2]; tauto.
Qed.
Lemma C92_disjoint_boxes_2d_pf : forall (A : arith) (a b : BoundingBox2 (num A)) (r : Ray2 (num A)), Ordered2 a -> Ordered2 b -> Finite2 (r2_origin r) -> VFinite2 (r2_direction r) -> NotGrazing2 a r -> NotGrazing2 b r ->
  bb2_intersect a b = None -> forall t t', HitAt2 a r t -> HitAt2 b r t -> HitAt2 a r t' -> HitAt2 b r t' -> Eqs t t'.
Proof.
  intros A a b r Oa Ob F V Ga Gb I t t' H1 H2 H3 H4. pose proof (num_OrdLaws A) as L.
  assert (S : exists d, Le (coord2 (bb2_max b) d) (coord2 (bb2_min a) d) \/ Le (coord2 (bb2_max a) d) (coord2 (bb2_min b) d)).
  { unfold bb2_intersect in I. destruct (bb2_overlaps a b) eqn:O; [discriminate|]. unfold bb2_overlaps in O.
    assert (W : forall p q : num A, NoNaN p -> NoNaN q -> sle p q = true \/ Le q p) by (intros p q Np Nq; exact (Le_total L p q Np Nq)).
    assert (Na : forall d, NoNaN (coord2 (bb2_min a) d) /\ NoNaN (coord2 (bb2_max a) d)) by (intros d; exact (Le_nan L _ _ (Oa d))).
    assert (Nb : forall d, NoNaN (coord2 (bb2_min b) d) /\ NoNaN (coord2 (bb2_max b) d)) by (intros d; exact (Le_nan L _ _ (Ob d))).
    assert (Q : forall d, (sle (coord2 (bb2_min b) d) (coord2 (bb2_max a) d) = true /\ sle (coord2 (bb2_min a) d) (coord2 (bb2_max b) d) = true) \/ (Le (coord2 (bb2_max b) d) (coord2 (bb2_min a) d) \/ Le (coord2 (bb2_max a) d) (coord2 (bb2_min b) d))).
    { intros d. destruct (W _ _ (proj1 (Nb d)) (proj2 (Na d))), (W _ _ (proj1 (Na d)) (proj2 (Nb d))); tauto. }
    destruct (Q D2X) as [[Q1 Q2]|Q1]; [|now exists D2X]. destruct (Q D2Y) as [[Q3 Q4]|Q3]; [|now exists D2Y]. cbn [coord2] in *. rewrite Q1, Q2, Q3, Q4 in O. discriminate. }
  assert (N : NoNaN t) by exact (hit2_nan _ _ _ H1). assert (N' : NoNaN t') by exact (hit2_nan _ _ _ H3).
  destruct (num2 a r Oa F V Ga) as [A1 A2]. destruct (num2 b r Ob F V Gb) as [B1 B2].
  apply hit2_iff in H1, H2, H3, H4; try assumption. destruct H1 as [_ H1], H2 as [_ H2], H3 as [_ H3], H4 as [_ H4]. unfold NR2, FR2 in *.
  destruct S as [d S]. specialize (H1 d). specialize (H2 d). specialize (H3 d). specialize (H4 d). apply Eqs_tx.
  assert (E : tx t = tx t').
  { destruct S as [S|S].
    - destruct (slab_apart _ _ _ _ _ _ (F d) (V d) (fun Z => proj1 (Ga d Z)) (fun Z => proj2 (Ga d Z)) (fun Z => proj1 (Gb d Z)) (fun Z => proj2 (Gb d Z)) (Oa d) (Ob d) S) as [q K]. rewrite (K (tx t)), (K (tx t')); tauto.
    - destruct (slab_apart _ _ _ _ _ _ (F d) (V d) (fun Z => proj1 (Gb d Z)) (fun Z => proj2 (Gb d Z)) (fun Z => proj1 (Ga d Z)) (fun Z => proj2 (Ga d Z)) (Ob d) (Oa d) S) as [q K]. rewrite (K (tx t)), (K (tx t')); tauto. }
  split; [exact E | now apply NoNaN_tx].
Qed.
Lemma C92_disjoint_boxes_3d_pf : forall (A : arith) (a b : BoundingBox3 (num A)) (r : Ray3 (num A)), Ordered3 a -> Ordered3 b -> Finite3 (r3_origin r) -> VFinite3 (r3_direction r) -> NotGrazing3 a r -> NotGrazing3 b r ->
  bb3_intersect a b = None -> forall t t', HitAt3 a r t -> HitAt3 b r t -> HitAt3 a r t' -> HitAt3 b r t' -> Eqs t t'.
Proof.
  intros A a b r Oa Ob F V Ga Gb I t t' H1 H2 H3 H4. pose proof (num_OrdLaws A) as L.
  assert (S : exists d, Le (coord3 (bb3_max b) d) (coord3 (bb3_min a) d) \/ Le (coord3 (bb3_max a) d) (coord3 (bb3_min b) d)).
  { unfold bb3_intersect in I. destruct (bb3_overlaps a b) eqn:O; [discriminate|]. unfold bb3_overlaps in O.
    assert (W : forall p q : num A, NoNaN p -> NoNaN q -> sle p q = true \/ Le q p) by (intros p q Np Nq; exact (Le_total L p q Np Nq)).
    assert (Na : forall d, NoNaN (coord3 (bb3_min a) d) /\ NoNaN (coord3 (bb3_max a) d)) by (intros d; exact (Le_nan L _ _ (Oa d))).
    assert (Nb : forall d, NoNaN (coord3 (bb3_min b) d) /\ NoNaN (coord3 (bb3_max b) d)) by (intros d; exact (Le_nan L _ _ (Ob d))).
    assert (Q : forall d, (sle (coord3 (bb3_min b) d) (coord3 (bb3_max a) d) = true /\ sle (coord3 (bb3_min a) d) (coord3 (bb3_max b) d) = true) \/ (Le (coord3 (bb3_max b) d) (coord3 (bb3_min a) d) \/ Le (coord3 (bb3_max a) d) (coord3 (bb3_min b) d))).
    { intros d. destruct (W _ _ (proj1 (Nb d)) (proj2 (Na d))), (W _ _ (proj1 (Na d)) (proj2 (Nb d))); tauto. }
    destruct (Q D3X) as [[Q1 Q2]|Q1]; [|now exists D3X]. destruct (Q D3Y) as [[Q3 Q4]|Q3]; [|now exists D3Y]. destruct (Q D3Z) as [[Q5 Q6]|Q5]; [|now exists D3Z]. cbn [coord3] in *. rewrite Q1, Q2, Q3, Q4, Q5, Q6 in O. discriminate. }
  assert (N : NoNaN t) by exact (hit3_nan _ _ _ H1). assert (N' : NoNaN t') by exact (hit3_nan _ _ _ H3).
  destruct (num3 a r Oa F V Ga) as [A1 A2]. destruct (num3 b r Ob F V Gb) as [B1 B2].
  apply hit3_iff in H1, H2, H3, H4; try assumption. destruct H1 as [_ H1], H2 as [_ H2], H3 as [_ H3], H4 as [_ H4]. unfold NR3, FR3 in *.
  destruct S as [d S]. specialize (H1 d). specialize (H2 d). specialize (H3 d). specialize (H4 d). apply Eqs_tx.
  assert (E : tx t = tx t').
  { destruct S as [S|S].
    - destruct (slab_apart _ _ _ _ _ _ (F d) (V d) (fun Z => proj1 (Ga d Z)) (fun Z => proj2 (Ga d Z)) (fun Z => proj1 (Gb d Z)) (fun Z => proj2 (Gb d Z)) (Oa d) (Ob d) S) as [q K]. rewrite (K (tx t)), (K (tx t')); tauto.
    - destruct (slab_apart _ _ _ _ _ _ (F d) (V d) (fun Z => proj1 (Gb d Z)) (fun Z => proj2 (Gb d Z)) (fun Z => proj1 (Ga d Z)) (fun Z => proj2 (Ga d Z)) (Ob d) (Oa d) S) as [q K]. rewrite (K (tx t)), (K (tx t')); tauto. }
  split; [exact E | now apply NoNaN_tx].
Qed.
(* exact arithmetic: a finite parameter in the interval of a slab is a point between the faces *)
Section X.
Lemma q_pos_lo x r a t : 0 < a -> xle (xdiv (xsub x (Fin r)) (Fin a)) (Fin t) = true -> xle x (Fin (r + t * a)) = true.
Proof.
  intros N. destruct x as [x| | |]; cbn [xsub xneg xadd xdiv]; rewrite ?(Req_bool_false a), ?(Rlt_bool_false a) by lra; try discriminate; try reflexivity. intros H. apply xle_fin in H. apply xle_fin.
  apply (Rmult_le_compat_r a) in H; [|lra]. unfold Rdiv in H. rewrite Rmult_assoc, Rinv_l in H by lra. lra.
Qed.
Lemma q_pos_hi x r a t : 0 < a -> xle (Fin t) (xdiv (xsub x (Fin r)) (Fin a)) = true -> xle (Fin (r + t * a)) x = true.
Proof.
  intros N. destruct x as [x| | |]; cbn [xsub xneg xadd xdiv]; rewrite ?(Req_bool_false a), ?(Rlt_bool_false a) by lra; try discriminate; try reflexivity. intros H. apply xle_fin in H. apply xle_fin.
  apply (Rmult_le_compat_r a) in H; [|lra]. unfold Rdiv in H. rewrite Rmult_assoc, Rinv_l in H by lra. lra.
Qed.
Lemma q_neg_lo x r a t : a < 0 -> xle (xdiv (xsub x (Fin r)) (Fin a)) (Fin t) = true -> xle (Fin (r + t * a)) x = true.
Proof.
  intros N. destruct x as [x| | |]; cbn [xsub xneg xadd xdiv]; rewrite ?(Req_bool_false a), ?(Rlt_bool_true a) by lra; try discriminate; try reflexivity. intros H. apply xle_fin in H. apply xle_fin.
  apply (Rmult_le_compat_neg_l a) in H; [|lra]. replace (a * ((x + - r) / a)) with (x + - r) in H by (field; lra). lra.
Qed.
Lemma q_neg_hi x r a t : a < 0 -> xle (Fin t) (xdiv (xsub x (Fin r)) (Fin a)) = true -> xle x (Fin (r + t * a)) = true.
Proof.
  intros N. destruct x as [x| | |]; cbn [xsub xneg xadd xdiv]; rewrite ?(Req_bool_false a), ?(Rlt_bool_true a) by lra; try discriminate; try reflexivity. intros H. apply xle_fin in H. apply xle_fin.
  apply (Rmult_le_compat_neg_l a) in H; [|lra]. replace (a * ((x + - r) / a)) with (x + - r) in H by (field; lra). lra.
Qed.
Lemma q_zero x r : xnan x = false -> x <> Fin r -> xdiv (xsub x (Fin r)) (Fin 0) = PInf /\ xle (Fin r) x = true \/ xdiv (xsub x (Fin r)) (Fin 0) = NInf /\ xle x (Fin r) = true.
Proof.
  intros Nx K. destruct x as [x| | |]; try discriminate; cbn [xsub xneg xadd xdiv]; rewrite ?(Req_bool_true 0), ?(Rlt_bool_false 0 0) by lra; [|left; split; reflexivity | right; split; reflexivity].
  assert (x <> r) by congruence. unfold xsigned_inf. destruct (Rlt_bool_spec 0 (x + - r)).
  - left. split; [reflexivity | apply xle_fin; lra].
  - right. rewrite Rlt_bool_true by lra. split; [reflexivity | apply xle_fin; lra].
Qed.
Lemma exact_axis (la ha o d : num EXACT) (r a t : R) : tx o = Fin r -> tx d = Fin a -> ok o d la -> ok o d ha -> Le la ha ->
  xle (tx (near la ha o d)) (Fin t) = true -> xle (Fin t) (tx (far la ha o d)) = true -> xle la (Fin (r + t * a)) = true /\ xle (Fin (r + t * a)) ha = true.
Proof.
  intros Eo Ed Oa Oh La. unfold near, far. rewrite tx_smin, tx_smax. change (o = Fin r) in Eo. change (d = Fin a) in Ed. subst o d.
  change (xle la ha = true) in La. pose proof (xle_n1 _ _ La) as N1. pose proof (xle_n2 _ _ La) as N2.
  change (tx (sdiv (ssub la (Fin r : num EXACT)) (Fin a : num EXACT))) with (xdiv (xsub la (Fin r)) (Fin a)). change (tx (sdiv (ssub ha (Fin r : num EXACT)) (Fin a : num EXACT))) with (xdiv (xsub ha (Fin r)) (Fin a)).
  pose proof (xsub_mono_l la ha r La) as M. destruct (Rtotal_order a 0) as [N|[Z|N]].
  - apply (xdiv_mono_neg _ _ a N) in M. rewrite (xmin_r _ _ M), (xmax_l _ _ M). intros H1 H2. split; [exact (q_neg_hi _ _ _ _ N H2) | exact (q_neg_lo _ _ _ _ N H1)].
  - subst a. assert (E : Eqs (Fin 0 : num EXACT) szero) by (apply Eqs_tx; split; [reflexivity | discriminate]).
    assert (OK : forall x, ok (Fin r : num EXACT) (Fin 0 : num EXACT) x -> x <> Fin r). { intros x O X. subst x. apply (O E). apply Eqs_tx. split; [reflexivity | discriminate]. }
    destruct (q_zero la r N1 (OK _ Oa)) as [[-> K1]|[-> K1]], (q_zero ha r N2 (OK _ Oh)) as [[-> K2]|[-> K2]]; cbn; try discriminate; intros _ _; rewrite Rmult_0_r, Rplus_0_r; [|now split].
    exfalso. apply (OK _ Oa). apply xle_anti; [|exact K1]. exact (xle_trans _ _ _ La K2).
  - apply (xdiv_mono_pos _ _ a N) in M. rewrite (xmin_l _ _ M), (xmax_r _ _ M). intros H1 H2. split; [exact (q_pos_lo _ _ _ _ N H1) | exact (q_pos_hi _ _ _ _ N H2)].
Qed.
End X.
Lemma C92_disjoint_boxes_exact_2d_pf : forall (a b : BoundingBox2 (num EXACT)) (r : Ray2 (num EXACT)), Ordered2 a -> Ordered2 b -> Finite2 (r2_origin r) -> VFinite2 (r2_direction r) -> NotGrazing2 a r -> NotGrazing2 b r ->
  bb2_intersect a b = None -> forall t, Finite t -> ~ (HitAt2 a r t /\ HitAt2 b r t).
Proof.
  intros a b r Oa Ob F V Ga Gb I t Ft [H1 H2]. pose proof (num_OrdLaws EXACT) as L. apply (bb2_intersect_none L a b Oa Ob) in I. apply I.
  assert (N : NoNaN t) by exact (hit2_nan _ _ _ H1).
  destruct (num2 a r Oa F V Ga) as [A1 A2]. destruct (num2 b r Ob F V Gb) as [B1 B2].
  apply hit2_iff in H1, H2; try assumption. destruct H1 as [_ H1], H2 as [_ H2]. unfold NR2, FR2 in *. apply Finite_tx in Ft. destruct Ft as [q Et]. rewrite Et in *.
  assert (K : forall d, exists p : num EXACT, Le (coord2 (bb2_min a) d) p /\ Le p (coord2 (bb2_max a) d) /\ Le (coord2 (bb2_min b) d) p /\ Le p (coord2 (bb2_max b) d)).
  { intros d. destruct (proj1 (Finite_tx _) (F d)) as [ro Eo]. destruct (proj1 (Finite_tx _) (V d)) as [ra Ea]. exists (Fin (ro + q * ra)).
    destruct (exact_axis _ _ _ _ ro ra q Eo Ea (fun Z => proj1 (Ga d Z)) (fun Z => proj2 (Ga d Z)) (Oa d) (proj1 (H1 d)) (proj2 (H1 d))) as [K1 K2].
    destruct (exact_axis _ _ _ _ ro ra q Eo Ea (fun Z => proj1 (Gb d Z)) (fun Z => proj2 (Gb d Z)) (Ob d) (proj1 (H2 d)) (proj2 (H2 d))) as [K3 K4].
    split; [|split; [|split]]; apply Le_tx; assumption. }
  destruct (K D2X) as [px Kx], (K D2Y) as [py Ky]. exists (mkPoint2 px py). split; split; intros []; cbn [coord2 p2x p2y] in *; tauto.
Qed.
Lemma C92_disjoint_boxes_exact_3d_pf : forall (a b : BoundingBox3 (num EXACT)) (r : Ray3 (num EXACT)), Ordered3 a -> Ordered3 b -> Finite3 (r3_origin r) -> VFinite3 (r3_direction r) -> NotGrazing3 a r -> NotGrazing3 b r ->
  bb3_intersect a b = None -> forall t, Finite t -> ~ (HitAt3 a r t /\ HitAt3 b r t).
Proof.
  intros a b r Oa Ob F V Ga Gb I t Ft [H1 H2]. pose proof (num_OrdLaws EXACT) as L. apply (bb3_intersect_none L a b Oa Ob) in I. apply I.
  assert (N : NoNaN t) by exact (hit3_nan _ _ _ H1).
  destruct (num3 a r Oa F V Ga) as [A1 A2]. destruct (num3 b r Ob F V Gb) as [B1 B2].
  apply hit3_iff in H1, H2; try assumption. destruct H1 as [_ H1], H2 as [_ H2]. unfold NR3, FR3 in *. apply Finite_tx in Ft. destruct Ft as [q Et]. rewrite Et in *.
  assert (K : forall d, exists p : num EXACT, Le (coord3 (bb3_min a) d) p /\ Le p (coord3 (bb3_max a) d) /\ Le (coord3 (bb3_min b) d) p /\ Le p (coord3 (bb3_max b) d)).
  { intros d. destruct (proj1 (Finite_tx _) (F d)) as [ro Eo]. destruct (proj1 (Finite_tx _) (V d)) as [ra Ea]. exists (Fin (ro + q * ra)).
    destruct (exact_axis _ _ _ _ ro ra q Eo Ea (fun Z => proj1 (Ga d Z)) (fun Z => proj2 (Ga d Z)) (Oa d) (proj1 (H1 d)) (proj2 (H1 d))) as [K1 K2].
    destruct (exact_axis _ _ _ _ ro ra q Eo Ea (fun Z => proj1 (Gb d Z)) (fun Z => proj2 (Gb d Z)) (Ob d) (proj1 (H2 d)) (proj2 (H2 d))) as [K3 K4].
    split; [|split; [|split]]; apply Le_tx; assumption. }
  destruct (K D3X) as [px Kx], (K D3Y) as [py Ky], (K D3Z) as [pz Kz]. exists (mkPoint3 px py pz). split; split; intros []; cbn [coord3 p3x p3y p3z] in *; tauto.
Qed.
Lemma C92_disjoint_boxes_can_share_a_parameter_pf : let a := mkBB2 (mkPoint2 (d64 0 0) (d64 0 0)) (mkPoint2 (d64 1 0) (d64 1 0)) in let b := mkBB2 (mkPoint2 (d64 4503599627370497 (-52)) (d64 0 0)) (mkPoint2 (d64 2 0) (d64 1 0)) in
  let r := mkRay2 (mkPoint2 (nd64 1 0) (d64 1 (-1))) (mkVector2 (d64 1 0) (d64 0 0)) in
  bb2_intersect a b = None /\ HitAt2 a r (d64 2 0) /\ HitAt2 b r (d64 2 0) /\ Ordered2 a /\ Ordered2 b /\ NotGrazing2 a r /\ NotGrazing2 b r.
Proof.
  cbv zeta. assert (H : forall (b : BoundingBox2 (num A64)) (r : Ray2 (num A64)) t, match bb2_intersect_ray b r with Some (s, e) => sle s t && sle t e | None => false end = true -> HitAt2 b r t).
  { intros b r t. unfold HitAt2. destruct (bb2_intersect_ray b r) as [[s e]|]; [|discriminate]. intros K. apply andb_true_iff in K. exists s, e. now split. }
  split; [vm_compute; reflexivity|]. split; [apply H; vm_compute; reflexivity|]. split; [apply H; vm_compute; reflexivity|]. split; [intros []; vm_compute; reflexivity|]. split; [intros []; vm_compute; reflexivity|].
  split; intros [] K; vm_compute in K; try discriminate K; split; vm_compute; discriminate.
Qed.
