(** Proofs: the ray-box test does not depend on the order or the orientation of the axes (C75). *)
From Coq Require Import Bool NArith ZArith Reals List Lra Lia.
From Flocq Require Import Core.Zaux Core.Raux Core.Defs Core.Generic_fmt Core.Float_prop Core.FLT IEEE754.BinarySingleNaN.
From Verif Require Import Scalar Types Vector2 Vector3 Point2 Point3 Ray BoundingBox2 BoundingBox3 Transform2 Transform3 Float
  XReal OrdLaws Arith SpecOrder SpecStruct SpecFloat SpecSame FloatX XArith FloatLaws FloatInt FloatGeom SlabBase FloatRay FloatSign ExVals.
Local Open Scope R_scope.
Lemma xle_trans a b c : xle a b = true -> xle b c = true -> xle a c = true.
Proof. destruct a as [a| | |], b as [b| | |], c as [c| | |]; cbn; try discriminate; try reflexivity. intros H K. apply Rle_bool_true. destruct (Rle_bool_spec a b), (Rle_bool_spec b c); try discriminate. lra. Qed.
Lemma xmax_num a b : xnan a = false -> xnan (xmax a b) = false.
Proof. intros H. unfold xmax. rewrite H. destruct (xnan b) eqn:K; [assumption|]. now destruct (xle a b). Qed.
Lemma xmin_num a b : xnan a = false -> xnan (xmin a b) = false.
Proof. intros H. unfold xmin. rewrite H. destruct (xnan b) eqn:K; [assumption|]. now destruct (xle a b). Qed.
Lemma xle_rfl a : xnan a = false -> xle a a = true.
Proof. destruct a; cbn; try discriminate; try reflexivity. intros _. apply Rle_bool_true. lra. Qed.
Lemma xmax_ge a b : xnan a = false -> xle a (xmax a b) = true.
Proof. intros H. unfold xmax. rewrite H. destruct (xnan b) eqn:K; [now apply xle_rfl|]. destruct (xle a b) eqn:Q; [assumption | now apply xle_rfl]. Qed.
Lemma xmin_le a b : xnan a = false -> xle (xmin a b) a = true.
Proof. intros H. unfold xmin. rewrite H. destruct (xnan b) eqn:K; [now apply xle_rfl|]. destruct (xle a b) eqn:Q; [now apply xle_rfl|]. destruct (xle_total a b H K); congruence. Qed.
Lemma xlt_nle a b : xnan a = false -> xnan b = false -> xlt a b = negb (xle b a).
Proof. destruct a as [a| | |], b as [b| | |]; cbn; try discriminate; try reflexivity. intros _ _. destruct (Rlt_bool_spec a b), (Rle_bool_spec b a); try reflexivity; lra. Qed.
Lemma xmax_swap z a b : xnan z = false -> xmax (xmax z a) b = xmax (xmax z b) a.
Proof.
  intros H. unfold xmax. destruct z as [z| | |], a as [a| | |], b as [b| | |]; try discriminate; cbn; try reflexivity;
    repeat (match goal with |- context [Rle_bool ?x ?y] => destruct (Rle_bool_spec x y); cbn end); try reflexivity; f_equal; lra.
Qed.
Lemma xmin_swap z a b : xnan z = false -> xmin (xmin z a) b = xmin (xmin z b) a.
Proof.
  intros H. unfold xmin. destruct z as [z| | |], a as [a| | |], b as [b| | |]; try discriminate; cbn; try reflexivity;
    repeat (match goal with |- context [Rle_bool ?x ?y] => destruct (Rle_bool_spec x y); cbn end); try reflexivity; f_equal; lra.
Qed.
(* what the ray test returns, in terms of a start S and an end E *)
Definition xres {A : arith} (o : option (num A * num A)) (s e : xreal) : Prop :=
  match o with Some (a, b) => xle s e = true /\ tx a = s /\ tx b = e | None => xle s e = false end.
Lemma xres_same {A : arith} (o o' : option (num A * num A)) s e : xres o s e -> xres o' s e ->
  match o, o' with Some (a, b), Some (a', b') => Same a a' /\ Same b b' | None, None => True | _, _ => False end.
Proof.
  destruct o as [[a b]|], o' as [[a' b']|]; cbn.
  - intros (_ & E1 & E2) (_ & E3 & E4). split; apply Same_tx; congruence.
  - intros (E & _) E'. congruence.
  - intros E (E' & _). congruence.
  - auto.
Qed.
Lemma xr_dead s1 e1 s2 e2 : xnan s1 = false -> xnan e1 = false -> xlt e1 s1 = true -> xle s1 s2 = true -> xle e2 e1 = true -> xle s2 e2 = false.
Proof.
  intros N1 N2 L H K. destruct (xle s2 e2) eqn:Q; [|reflexivity]. rewrite xlt_nle in L by assumption.
  rewrite (xle_trans s1 e2 e1) in L; [discriminate | now apply xle_trans with s2 | assumption].
Qed.
Section A.
Context {A : arith}.
Definition NR2 (b : BoundingBox2 (num A)) (r : Ray2 (num A)) d : xreal := tx (near (coord2 (bb2_min b) d) (coord2 (bb2_max b) d) (coord2 (r2_origin r) d) (vcoord2 (r2_direction r) d)).
Definition FR2 (b : BoundingBox2 (num A)) (r : Ray2 (num A)) d : xreal := tx (far (coord2 (bb2_min b) d) (coord2 (bb2_max b) d) (coord2 (r2_origin r) d) (vcoord2 (r2_direction r) d)).
Definition NR3 (b : BoundingBox3 (num A)) (r : Ray3 (num A)) d : xreal := tx (near (coord3 (bb3_min b) d) (coord3 (bb3_max b) d) (coord3 (r3_origin r) d) (vcoord3 (r3_direction r) d)).
Definition FR3 (b : BoundingBox3 (num A)) (r : Ray3 (num A)) d : xreal := tx (far (coord3 (bb3_min b) d) (coord3 (bb3_max b) d) (coord3 (r3_origin r) d) (vcoord3 (r3_direction r) d)).
Definition S2 b r := xmax (xmax (Fin 0) (NR2 b r D2X)) (NR2 b r D2Y).
Definition E2 b r := xmin (xmin PInf (FR2 b r D2X)) (FR2 b r D2Y).
Definition S3 b r := xmax (xmax (xmax (Fin 0) (NR3 b r D3X)) (NR3 b r D3Y)) (NR3 b r D3Z).
Definition E3 b r := xmin (xmin (xmin PInf (FR3 b r D3X)) (FR3 b r D3Y)) (FR3 b r D3Z).
Lemma ray_xres2 b r : xres (bb2_intersect_ray b r) (S2 b r) (E2 b r).
Proof.
  rewrite ray2_unfold. cbv zeta. rewrite tx_lt, tx_smin, tx_smax, tx_0, tx_inf. change (tx (near _ _ _ _)) with (NR2 b r D2X). change (tx (far _ _ _ _)) with (FR2 b r D2X).
  pose proof (xmax_num (Fin 0) (NR2 b r D2X) eq_refl) as N1. pose proof (xmin_num PInf (FR2 b r D2X) eq_refl) as N2.
  destruct (xlt _ _) eqn:L.
  - cbn [xres]. refine (xr_dead _ _ _ _ N1 N2 L _ _); [now apply xmax_ge | now apply xmin_le].
  - rewrite tx_le, !tx_smin, !tx_smax, tx_0, tx_inf. fold (NR2 b r D2X) (NR2 b r D2Y) (FR2 b r D2X) (FR2 b r D2Y). fold (S2 b r) (E2 b r).
    destruct (xle (S2 b r) (E2 b r)) eqn:Q; cbn [xres]; [|assumption]. split; [assumption|]. rewrite !tx_smin, !tx_smax, tx_0, tx_inf. split; reflexivity.
Qed.
Lemma ray_xres3 b r : xres (bb3_intersect_ray b r) (S3 b r) (E3 b r).
Proof.
  rewrite ray3_unfold. cbv zeta. rewrite !tx_lt, !tx_smin, !tx_smax, tx_0, tx_inf. fold (NR3 b r D3X) (NR3 b r D3Y) (FR3 b r D3X) (FR3 b r D3Y).
  pose proof (xmax_num (Fin 0) (NR3 b r D3X) eq_refl) as N1. pose proof (xmin_num PInf (FR3 b r D3X) eq_refl) as N2.
  pose proof (xmax_num _ (NR3 b r D3Y) N1) as N3. pose proof (xmin_num _ (FR3 b r D3Y) N2) as N4.
  destruct (xlt _ _) eqn:L; [|clear L; destruct (xlt _ _) eqn:L].
  - cbn [xres]. refine (xr_dead _ _ _ _ N1 N2 L _ _); [eapply xle_trans; [now apply (xmax_ge _ (NR3 b r D3Y)) | now apply xmax_ge] | eapply xle_trans; [now apply xmin_le | now apply xmin_le]].
  - cbn [xres]. refine (xr_dead _ _ _ _ N3 N4 L _ _); [now apply xmax_ge | now apply xmin_le].
  - rewrite tx_le, !tx_smin, !tx_smax, tx_0, tx_inf. fold (NR3 b r D3X) (NR3 b r D3Y) (NR3 b r D3Z) (FR3 b r D3X) (FR3 b r D3Y) (FR3 b r D3Z). fold (S3 b r) (E3 b r).
    destruct (xle (S3 b r) (E3 b r)) eqn:Q; cbn [xres]; [|assumption]. split; [assumption|]. rewrite !tx_smin, !tx_smax, tx_0, tx_inf. split; reflexivity.
Qed.
End A.
(* mirrored quotient: in IEEE arithmetic also for a zero direction, whose sign flips too *)
Lemma div_neg_neg f (P : platform f) (x x' y : num (IEEE f P)) : Ng x x' -> tx (sdiv x (sneg y)) = tx (sdiv x' y).
Proof.
  intros E. destruct (tx y) eqn:Y.
  2-4: rewrite !tx_div by (rewrite ?tx_neg, Y; discriminate); rewrite E, tx_neg, Y, xdiv_neg_l; rewrite xdiv_neg_r by discriminate; now rewrite xneg_xneg.
  destruct (Req_dec r 0) as [->|N].
  - assert (Z : exists s, y = B754_zero s).
    { cbn [tx] in Y. destruct y as [s|[]| |s m e H]; try discriminate; [now exists s|]. exfalso. cbn [toX B2R] in Y.
      assert (K : F2R (Float radix2 (cond_Zopp s (Z.pos m)) e) = 0) by congruence. apply eq_0_F2R in K. destruct s; discriminate. }
    destruct Z as [s ->]. pose proof (Ng_div_l x x' (sneg (B754_zero s : num (IEEE f P))) E) as D. unfold Ng in D. rewrite D. clear.
    change (xneg (toX (fdiv x' (fneg (B754_zero s)))) = toX (fdiv x' (B754_zero s))). destruct x' as [[]|[]| |[] m e H], s; reflexivity.
  - assert (N' : tx (sneg y) <> Fin 0) by (rewrite tx_neg, Y; cbn; intros K; injection K; lra). rewrite !tx_div by (assumption || (rewrite Y; congruence)).
    rewrite E, tx_neg, xdiv_neg_l, xdiv_neg_r by (rewrite Y; congruence). now rewrite xneg_xneg.
Qed.
Lemma near_mirror f (P : platform f) (lo hi o d : num (IEEE f P)) : tx (near (sneg hi) (sneg lo) (sneg o) (sneg d)) = tx (near lo hi o d).
Proof. unfold near. rewrite !tx_smin, xmin_comm. f_equal; apply div_neg_neg, Ng_sub; apply Ng_neg. Qed.
Lemma far_mirror f (P : platform f) (lo hi o d : num (IEEE f P)) : tx (far (sneg hi) (sneg lo) (sneg o) (sneg d)) = tx (far lo hi o d).
Proof. unfold far. rewrite !tx_smax, xmax_comm. f_equal; apply div_neg_neg, Ng_sub; apply Ng_neg. Qed.
Lemma C75_mirror_2d_pf : forall (f : format) (P : platform f) (flip : Dimension2 -> bool) (b b' : BoundingBox2 (num (IEEE f P))) (r r' : Ray2 (num (IEEE f P))),
  (forall d, if flip d
     then coord2 (bb2_min b') d = sneg (coord2 (bb2_max b) d) /\ coord2 (bb2_max b') d = sneg (coord2 (bb2_min b) d) /\
          coord2 (r2_origin r') d = sneg (coord2 (r2_origin r) d) /\ vcoord2 (r2_direction r') d = sneg (vcoord2 (r2_direction r) d)
     else coord2 (bb2_min b') d = coord2 (bb2_min b) d /\ coord2 (bb2_max b') d = coord2 (bb2_max b) d /\
          coord2 (r2_origin r') d = coord2 (r2_origin r) d /\ vcoord2 (r2_direction r') d = vcoord2 (r2_direction r) d) ->
  match bb2_intersect_ray b' r', bb2_intersect_ray b r with
  | Some (s', e'), Some (s, e) => Same s' s /\ Same e' e | None, None => True | _, _ => False end.
Proof.
  intros f P flip b b' r r' H.
  assert (N : forall d, NR2 b' r' d = NR2 b r d).
  { intros d. specialize (H d). unfold NR2. destruct (flip d); destruct H as (-> & -> & -> & ->); [apply near_mirror | reflexivity]. }
  assert (F : forall d, FR2 b' r' d = FR2 b r d).
  { intros d. specialize (H d). unfold FR2. destruct (flip d); destruct H as (-> & -> & -> & ->); [apply far_mirror | reflexivity]. }
  apply xres_same with (S2 b r) (E2 b r); [|apply ray_xres2]. replace (S2 b r) with (S2 b' r') by (unfold S2; now rewrite !N). replace (E2 b r) with (E2 b' r') by (unfold E2; now rewrite !F). apply ray_xres2.
Qed.
Lemma C75_mirror_3d_pf : forall (f : format) (P : platform f) (flip : Dimension3 -> bool) (b b' : BoundingBox3 (num (IEEE f P))) (r r' : Ray3 (num (IEEE f P))),
  (forall d, if flip d
     then coord3 (bb3_min b') d = sneg (coord3 (bb3_max b) d) /\ coord3 (bb3_max b') d = sneg (coord3 (bb3_min b) d) /\
          coord3 (r3_origin r') d = sneg (coord3 (r3_origin r) d) /\ vcoord3 (r3_direction r') d = sneg (vcoord3 (r3_direction r) d)
     else coord3 (bb3_min b') d = coord3 (bb3_min b) d /\ coord3 (bb3_max b') d = coord3 (bb3_max b) d /\
          coord3 (r3_origin r') d = coord3 (r3_origin r) d /\ vcoord3 (r3_direction r') d = vcoord3 (r3_direction r) d) ->
  match bb3_intersect_ray b' r', bb3_intersect_ray b r with
  | Some (s', e'), Some (s, e) => Same s' s /\ Same e' e | None, None => True | _, _ => False end.
Proof.
  intros f P flip b b' r r' H.
  assert (N : forall d, NR3 b' r' d = NR3 b r d).
  { intros d. specialize (H d). unfold NR3. destruct (flip d); destruct H as (-> & -> & -> & ->); [apply near_mirror | reflexivity]. }
  assert (F : forall d, FR3 b' r' d = FR3 b r d).
  { intros d. specialize (H d). unfold FR3. destruct (flip d); destruct H as (-> & -> & -> & ->); [apply far_mirror | reflexivity]. }
  apply xres_same with (S3 b r) (E3 b r); [|apply ray_xres3]. replace (S3 b r) with (S3 b' r') by (unfold S3; now rewrite !N). replace (E3 b r) with (E3 b' r') by (unfold E3; now rewrite !F). apply ray_xres3.
Qed.
Lemma C75_permute_2d_pf : forall (A : arith) (b : BoundingBox2 (num A)) (r : Ray2 (num A)),
  let pp p := p2_permute p D2Y D2X in let pv v := v2_permute v D2Y D2X in
  match bb2_intersect_ray (mkBB2 (pp (bb2_min b)) (pp (bb2_max b))) (mkRay2 (pp (r2_origin r)) (pv (r2_direction r))), bb2_intersect_ray b r with
  | Some (s', e'), Some (s, e) => Same s' s /\ Same e' e | None, None => True | _, _ => False end.
Proof.
  intros A b r. cbv zeta. match goal with |- match bb2_intersect_ray ?b' ?r' with _ => _ end => remember b' as b2 eqn:Eb; remember r' as r2 eqn:Er end.
  apply xres_same with (S2 b r) (E2 b r); [|apply ray_xres2].
  replace (S2 b r) with (S2 b2 r2); [replace (E2 b r) with (E2 b2 r2); [apply ray_xres2|]|]; subst; unfold S2, E2; [rewrite xmin_swap by reflexivity | rewrite xmax_swap by reflexivity]; reflexivity.
Qed.
Lemma C75_permute_3d_pf : forall (A : arith) (b : BoundingBox3 (num A)) (r : Ray3 (num A)) (i j k : Dimension3), i <> j -> i <> k -> j <> k ->
  let pp p := p3_permute p i j k in let pv v := v3_permute v i j k in
  match bb3_intersect_ray (mkBB3 (pp (bb3_min b)) (pp (bb3_max b))) (mkRay3 (pp (r3_origin r)) (pv (r3_direction r))), bb3_intersect_ray b r with
  | Some (s', e'), Some (s, e) => Same s' s /\ Same e' e | None, None => True | _, _ => False end.
Proof.
  intros A b r i j k Hij Hik Hjk. cbv zeta. match goal with |- match bb3_intersect_ray ?b' ?r' with _ => _ end => remember b' as b2 eqn:Eb; remember r' as r2 eqn:Er end.
  apply xres_same with (S3 b r) (E3 b r); [|apply ray_xres3].
  assert (N : forall d, NR3 b2 r2 d = NR3 b r (match d with D3X => i | D3Y => j | D3Z => k end)) by (intros d; subst; unfold NR3; destruct d; [destruct i | destruct j | destruct k]; reflexivity).
  assert (F : forall d, FR3 b2 r2 d = FR3 b r (match d with D3X => i | D3Y => j | D3Z => k end)) by (intros d; subst; unfold FR3; destruct d; [destruct i | destruct j | destruct k]; reflexivity).
  replace (S3 b r) with (S3 b2 r2); [replace (E3 b r) with (E3 b2 r2); [apply ray_xres3|]|]; unfold S3, E3; rewrite ?N, ?F; clear N F Eb Er b2 r2.
  - generalize (FR3 b r). intros g. destruct i, j, k; try congruence; rewrite ?(xmin_swap _ (g D3Z) (g D3Y)), ?(xmin_swap _ (g D3Z) (g D3X)), ?(xmin_swap _ (g D3Y) (g D3X)), ?(xmin_swap _ (g D3Z) (g D3Y)) by (repeat apply xmin_num; reflexivity); reflexivity.
  - generalize (NR3 b r). intros g. destruct i, j, k; try congruence; rewrite ?(xmax_swap _ (g D3Z) (g D3Y)), ?(xmax_swap _ (g D3Z) (g D3X)), ?(xmax_swap _ (g D3Y) (g D3X)), ?(xmax_swap _ (g D3Z) (g D3Y)) by (repeat apply xmax_num; reflexivity); reflexivity.
Qed.
