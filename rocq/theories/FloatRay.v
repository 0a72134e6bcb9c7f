(** Proofs: ray-box intersection in floating point; the empty box in unions and intersections; degenerate look_at. *)
From Coq Require Import Bool NArith ZArith Reals List Lra Lia.
From Verif Require Import Scalar Types Vector2 Vector3 Point2 Point3 Ray BoundingBox2 BoundingBox3 Transform2 Transform3 Float
  XReal OrdLaws Arith SpecOrder OrderProofs OrderBox SpecStruct SpecFloat FloatX XArith FloatLaws SlabBase Adj4.
Import ListNotations.
Section G.
Context {A : arith}.
Notation L := (num_OrdLaws A).
Lemma gt_false (s e : num A) : Le s e -> slt e s = false.
Proof. intros H. destruct (slt e s) eqn:E; [|reflexivity]. apply (Lt_iff L) in E. destruct E as (_ & _ & E). now elim E. Qed.
Lemma gt_le (s e : num A) : NoNaN s -> NoNaN e -> slt e s = false -> Le s e.
Proof. intros. now apply (not_Lt_Le L). Qed.
Lemma Le_0_inf : Le (szero : num A) sinf.
Proof. apply (Le_inf L). apply zero_NoNaN. Qed.
Lemma Eqs_Le (x y z : num A) : Eqs x y -> Le y z -> Le x z.
Proof. intros H K. apply (Eqs_iff L) in H. eapply (Le_trans L); [apply H | exact K]. Qed.
Lemma max_num (s x : num A) : NoNaN s -> NoNaN (s_max s x).
Proof. intros H. apply (Le_nan2 L s). now apply max_ge. Qed.
Lemma min_num (s x : num A) : NoNaN s -> NoNaN (s_min s x).
Proof. intros H. apply (Le_nan1 L _ s). now apply min_le. Qed.
Lemma inf_num : NoNaN (sinf : num A). Proof. apply (inf_NoNaN L). Qed.
Lemma min_inf (e x : num A) : Eqs e sinf -> (~ NoNaN x \/ Le sinf x) -> Eqs (s_min e x) sinf.
Proof.
  intros H R. apply (Eqs_iff L) in H. destruct H as [H1 H2]. pose proof (Le_nan L _ _ H1) as [N _]. apply (Eqs_iff L). split.
  - eapply (Le_trans L); [now apply min_le | exact H1].
  - destruct R as [R|R]; [now rewrite min_nan | now apply (min_glb L)].
Qed.
Lemma zero_eq : Eqs (szero : num A) szero. Proof. apply (Eqs_refl L). apply zero_NoNaN. Qed.
Lemma inf_eq : Eqs (sinf : num A) sinf. Proof. apply (Eqs_refl L). apply inf_num. Qed.
(* infinite faces, in either order *)
Lemma slab_infinite (lo hi o d : num A) : Finite o -> (tx lo = PInf /\ tx hi = NInf \/ tx lo = NInf /\ tx hi = PInf) ->
  (~ NoNaN (near lo hi o d) \/ Le (near lo hi o d) szero) /\ (~ NoNaN (far lo hi o d) \/ Le sinf (far lo hi o d)).
Proof.
  intros F H. apply Finite_tx in F. destruct F as [r Eo].
  assert (D1 : tx (ssub lo o) = tx lo /\ tx (ssub hi o) = tx hi).
  { rewrite !tx_sub, Eo. destruct H as [[-> ->]|[-> ->]]; cbn [xsub xneg xadd]; rewrite ?xr_pinf, ?xr_ninf; auto. }
  destruct D1 as [D1 D2].
  assert (K : (tx (sdiv (ssub lo o) d) = XNaN /\ tx (sdiv (ssub hi o) d) = XNaN) \/ (tx (sdiv (ssub lo o) d) = PInf /\ tx (sdiv (ssub hi o) d) = NInf) \/ (tx (sdiv (ssub lo o) d) = NInf /\ tx (sdiv (ssub hi o) d) = PInf)).
  { destruct (tx d) as [a| | |] eqn:Ed.
    - destruct (Req_dec a 0) as [->|N].
      + destruct (div_zero d Ed) as [b Z]. rewrite !Z, D1, D2. destruct H as [[-> ->]|[-> ->]], b; cbn; auto.
      + rewrite !tx_div by (rewrite Ed; congruence). rewrite D1, D2, Ed.
        destruct H as [[-> ->]|[-> ->]]; cbn [xdiv]; destruct (Flocq.Core.Raux.Rlt_bool a 0); rewrite xr_pinf, xr_ninf; auto.
    - left. rewrite !tx_div by (rewrite Ed; discriminate). rewrite D1, D2, Ed. destruct H as [[-> ->]|[-> ->]]; cbn [xdiv]; rewrite !xr_xnan; auto.
    - left. rewrite !tx_div by (rewrite Ed; discriminate). rewrite D1, D2, Ed. destruct H as [[-> ->]|[-> ->]]; cbn [xdiv]; rewrite !xr_xnan; auto.
    - left. split; now apply quo_nan. }
  unfold near, far. destruct K as [[K1 K2]|[[K1 K2]|[K1 K2]]].
  - split; left; apply NoNaN_txn; rewrite ?tx_smin, ?tx_smax, K1, K2; reflexivity.
  - split; right; apply Le_tx; rewrite ?tx_smin, ?tx_smax, K1, K2, ?tx_0, ?tx_inf; reflexivity.
  - split; right; apply Le_tx; rewrite ?tx_smin, ?tx_smax, K1, K2, ?tx_0, ?tx_inf; reflexivity.
Qed.
End G.
Lemma ray2_unfold {A : arith} (b : BoundingBox2 (num A)) (r : Ray2 (num A)) : bb2_intersect_ray b r =
  let nr d := near (coord2 (bb2_min b) d) (coord2 (bb2_max b) d) (coord2 (r2_origin r) d) (vcoord2 (r2_direction r) d) in
  let fr d := far (coord2 (bb2_min b) d) (coord2 (bb2_max b) d) (coord2 (r2_origin r) d) (vcoord2 (r2_direction r) d) in
  let s1 := s_max szero (nr D2X) in let e1 := s_min sinf (fr D2X) in
  let s2 := s_max s1 (nr D2Y) in let e2 := s_min e1 (fr D2Y) in
  if slt e1 s1 then None else if sle s2 e2 then Some (s2, e2) else None.
Proof. reflexivity. Qed.
Lemma ray3_unfold {A : arith} (b : BoundingBox3 (num A)) (r : Ray3 (num A)) : bb3_intersect_ray b r =
  let nr d := near (coord3 (bb3_min b) d) (coord3 (bb3_max b) d) (coord3 (r3_origin r) d) (vcoord3 (r3_direction r) d) in
  let fr d := far (coord3 (bb3_min b) d) (coord3 (bb3_max b) d) (coord3 (r3_origin r) d) (vcoord3 (r3_direction r) d) in
  let s1 := s_max szero (nr D3X) in let e1 := s_min sinf (fr D3X) in
  let s2 := s_max s1 (nr D3Y) in let e2 := s_min e1 (fr D3Y) in
  let s3 := s_max s2 (nr D3Z) in let e3 := s_min e2 (fr D3Z) in
  if slt e1 s1 then None else if slt e2 s2 then None else if sle s3 e3 then Some (s3, e3) else None.
Proof. reflexivity. Qed.
Lemma C57_origin_inside_hits_2d_pf : forall (A : arith) (b : BoundingBox2 (num A)) (r : Ray2 (num A)), Finite2 (r2_origin r) -> In2 (r2_origin r) b ->
  (forall d, Eqs (vcoord2 (r2_direction r) d) szero ->
     Lt (coord2 (bb2_min b) d) (coord2 (r2_origin r) d) /\ Lt (coord2 (r2_origin r) d) (coord2 (bb2_max b) d)) ->
  exists s e, bb2_intersect_ray b r = Some (s, e) /\ Eqs s szero /\ Le szero e.
Proof.
  intros A b r F [I1 I2] S. rewrite ray2_unfold. cbv zeta.
  assert (K : forall d, _) by (intros d; exact (slab_inside _ _ _ _ (F d) (I1 d) (I2 d) (S d))).
  destruct (K D2X) as [Kx1 Kx2], (K D2Y) as [Ky1 Ky2].
  pose proof (max_zero _ _ zero_eq Kx1) as S1. pose proof (min_nneg _ _ Le_0_inf Kx2) as E1.
  pose proof (max_zero _ _ S1 Ky1) as S2. pose proof (min_nneg _ _ E1 Ky2) as E2.
  rewrite (gt_false _ _ (Eqs_Le _ _ _ S1 E1)). pose proof (Eqs_Le _ _ _ S2 E2) as Q. unfold Le in Q. rewrite Q. eauto.
Qed.
Lemma C57_origin_inside_hits_3d_pf : forall (A : arith) (b : BoundingBox3 (num A)) (r : Ray3 (num A)), Finite3 (r3_origin r) -> In3 (r3_origin r) b ->
  (forall d, Eqs (vcoord3 (r3_direction r) d) szero ->
     Lt (coord3 (bb3_min b) d) (coord3 (r3_origin r) d) /\ Lt (coord3 (r3_origin r) d) (coord3 (bb3_max b) d)) ->
  exists s e, bb3_intersect_ray b r = Some (s, e) /\ Eqs s szero /\ Le szero e.
Proof.
  intros A b r F [I1 I2] S. rewrite ray3_unfold. cbv zeta.
  assert (K : forall d, _) by (intros d; exact (slab_inside _ _ _ _ (F d) (I1 d) (I2 d) (S d))).
  destruct (K D3X) as [Kx1 Kx2], (K D3Y) as [Ky1 Ky2], (K D3Z) as [Kz1 Kz2].
  pose proof (max_zero _ _ zero_eq Kx1) as S1. pose proof (min_nneg _ _ Le_0_inf Kx2) as E1.
  pose proof (max_zero _ _ S1 Ky1) as S2. pose proof (min_nneg _ _ E1 Ky2) as E2.
  pose proof (max_zero _ _ S2 Kz1) as S3. pose proof (min_nneg _ _ E2 Kz2) as E3.
  rewrite (gt_false _ _ (Eqs_Le _ _ _ S1 E1)), (gt_false _ _ (Eqs_Le _ _ _ S2 E2)). pose proof (Eqs_Le _ _ _ S3 E3) as Q. unfold Le in Q. rewrite Q. eauto.
Qed.
Lemma C58_monotone_2d_pf : forall (A : arith) (a b : BoundingBox2 (num A)) (r : Ray2 (num A)) (s e : num A), Ordered2 a -> Incl2 a b ->
  Finite2 (r2_origin r) -> VFinite2 (r2_direction r) ->
  (forall d, Eqs (vcoord2 (r2_direction r) d) szero ->
     ~ Eqs (coord2 (r2_origin r) d) (coord2 (bb2_min b) d) /\ ~ Eqs (coord2 (r2_origin r) d) (coord2 (bb2_max b) d)) ->
  bb2_intersect_ray a r = Some (s, e) ->
  exists s' e', bb2_intersect_ray b r = Some (s', e') /\ Le s' s /\ Le e e'.
Proof.
  intros A a b r s e Oa Iab F Fd S. apply (Incl2_iff (num_OrdLaws A) a b Oa) in Iab. destruct Iab as [I1 I2]. rewrite !ray2_unfold. cbv zeta.
  assert (K : forall d, _) by (intros d; exact (slab_mono _ _ _ _ _ _ (F d) (Fd d) (I1 d) (Oa d) (I2 d) (S d))).
  destruct (K D2X) as [Kx1 Kx2], (K D2Y) as [Ky1 Ky2]. clear K.
  set (nx := near (coord2 (bb2_min a) D2X) _ _ _) in *. set (fx := far (coord2 (bb2_min a) D2X) _ _ _) in *.
  set (ny := near (coord2 (bb2_min a) D2Y) _ _ _) in *. set (fy := far (coord2 (bb2_min a) D2Y) _ _ _) in *.
  set (nx' := near (coord2 (bb2_min b) D2X) _ _ _) in *. set (fx' := far (coord2 (bb2_min b) D2X) _ _ _) in *.
  set (ny' := near (coord2 (bb2_min b) D2Y) _ _ _) in *. set (fy' := far (coord2 (bb2_min b) D2Y) _ _ _) in *.
  pose proof (Le_refl (num_OrdLaws A) szero zero_NoNaN) as Z0. pose proof (Le_refl (num_OrdLaws A) sinf inf_num) as Zi.
  pose proof (max_rel _ _ _ _ Z0 Z0 Kx1) as S1. pose proof (min_rel _ _ _ _ Zi Kx2) as E1.
  assert (P1 : Le szero (s_max szero nx')) by (apply max_ge; apply zero_NoNaN).
  pose proof (max_rel _ _ _ _ P1 S1 Ky1) as S2. pose proof (min_rel _ _ _ _ E1 Ky2) as E2.
  destruct (slt (s_min sinf fx) (s_max szero nx)) eqn:G1; [discriminate|].
  apply gt_le in G1; [|apply max_num, zero_NoNaN | apply min_num, inf_num].
  rewrite (gt_false (s_max szero nx')) by (eapply (Le_trans (num_OrdLaws A)); [exact S1 | eapply (Le_trans (num_OrdLaws A)); [exact G1 | exact E1]]).
  match goal with |- (if ?c then _ else _) = _ -> _ => destruct c eqn:G2; [|discriminate] end. intros H. injection H as <- <-.
  assert (Q : sle (s_max (s_max szero nx') ny') (s_min (s_min sinf fx') fy') = true) by (eapply (Le_trans (num_OrdLaws A)); [exact S2 | eapply (Le_trans (num_OrdLaws A)); [exact G2 | exact E2]]).
  rewrite Q. eauto.
Qed.
Lemma C58_monotone_3d_pf : forall (A : arith) (a b : BoundingBox3 (num A)) (r : Ray3 (num A)) (s e : num A), Ordered3 a -> Incl3 a b ->
  Finite3 (r3_origin r) -> VFinite3 (r3_direction r) ->
  (forall d, Eqs (vcoord3 (r3_direction r) d) szero ->
     ~ Eqs (coord3 (r3_origin r) d) (coord3 (bb3_min b) d) /\ ~ Eqs (coord3 (r3_origin r) d) (coord3 (bb3_max b) d)) ->
  bb3_intersect_ray a r = Some (s, e) ->
  exists s' e', bb3_intersect_ray b r = Some (s', e') /\ Le s' s /\ Le e e'.
Proof.
  intros A a b r s e Oa Iab F Fd S. apply (Incl3_iff (num_OrdLaws A) a b Oa) in Iab. destruct Iab as [I1 I2]. rewrite !ray3_unfold. cbv zeta.
  assert (K : forall d, _) by (intros d; exact (slab_mono _ _ _ _ _ _ (F d) (Fd d) (I1 d) (Oa d) (I2 d) (S d))).
  destruct (K D3X) as [Kx1 Kx2], (K D3Y) as [Ky1 Ky2], (K D3Z) as [Kz1 Kz2]. clear K.
  set (nx := near (coord3 (bb3_min a) D3X) _ _ _) in *. set (fx := far (coord3 (bb3_min a) D3X) _ _ _) in *.
  set (ny := near (coord3 (bb3_min a) D3Y) _ _ _) in *. set (fy := far (coord3 (bb3_min a) D3Y) _ _ _) in *.
  set (nz := near (coord3 (bb3_min a) D3Z) _ _ _) in *. set (fz := far (coord3 (bb3_min a) D3Z) _ _ _) in *.
  set (nx' := near (coord3 (bb3_min b) D3X) _ _ _) in *. set (fx' := far (coord3 (bb3_min b) D3X) _ _ _) in *.
  set (ny' := near (coord3 (bb3_min b) D3Y) _ _ _) in *. set (fy' := far (coord3 (bb3_min b) D3Y) _ _ _) in *.
  set (nz' := near (coord3 (bb3_min b) D3Z) _ _ _) in *. set (fz' := far (coord3 (bb3_min b) D3Z) _ _ _) in *.
  pose proof (Le_refl (num_OrdLaws A) szero zero_NoNaN) as Z0. pose proof (Le_refl (num_OrdLaws A) sinf inf_num) as Zi.
  assert (T : forall x y z w : num A, Le x y -> Le y z -> Le z w -> Le x w) by (intros x y z w H1 H2 H3; eapply (Le_trans (num_OrdLaws A)); [exact H1 | eapply (Le_trans (num_OrdLaws A)); [exact H2 | exact H3]]).
  pose proof (max_rel _ _ _ _ Z0 Z0 Kx1) as S1. pose proof (min_rel _ _ _ _ Zi Kx2) as E1.
  assert (N1 : NoNaN (s_max szero nx')) by (apply max_num, zero_NoNaN).
  assert (P1 : Le szero (s_max szero nx')) by (apply max_ge; apply zero_NoNaN).
  pose proof (max_rel _ _ _ _ P1 S1 Ky1) as S2. pose proof (min_rel _ _ _ _ E1 Ky2) as E2.
  assert (P2 : Le szero (s_max (s_max szero nx') ny')) by (eapply (Le_trans (num_OrdLaws A)); [exact P1 | now apply max_ge]).
  pose proof (max_rel _ _ _ _ P2 S2 Kz1) as S3. pose proof (min_rel _ _ _ _ E2 Kz2) as E3.
  destruct (slt (s_min sinf fx) (s_max szero nx)) eqn:G1; [discriminate|].
  apply gt_le in G1; [|apply max_num, zero_NoNaN | apply min_num, inf_num].
  rewrite (gt_false (s_max szero nx')) by (exact (T _ _ _ _ S1 G1 E1)).
  destruct (slt (s_min (s_min sinf fx) fy) (s_max (s_max szero nx) ny)) eqn:G2; [discriminate|].
  apply gt_le in G2; [|apply max_num, max_num, zero_NoNaN | apply min_num, min_num, inf_num].
  rewrite (gt_false (s_max (s_max szero nx') ny')) by (exact (T _ _ _ _ S2 G2 E2)).
  match goal with |- (if ?c then _ else _) = _ -> _ => destruct c eqn:G3; [|discriminate] end. intros H. injection H as <- <-.
  assert (Q : sle (s_max (s_max (s_max szero nx') ny') nz') (s_min (s_min (s_min sinf fx') fy') fz') = true) by (exact (T _ _ _ _ S3 G3 E3)).
  rewrite Q. eauto.
Qed.
Lemma C58_union_keeps_hits_2d_pf : forall (A : arith) (l : list (BoundingBox2 (num A))) (a b : BoundingBox2 (num A)) (r : Ray2 (num A)) (s e : num A),
  Forall Ordered2 (b :: l) -> List.In a (b :: l) -> let u := fold_left bb2_union l b in
  Finite2 (r2_origin r) -> VFinite2 (r2_direction r) ->
  (forall d, Eqs (vcoord2 (r2_direction r) d) szero ->
     ~ Eqs (coord2 (r2_origin r) d) (coord2 (bb2_min u) d) /\ ~ Eqs (coord2 (r2_origin r) d) (coord2 (bb2_max u) d)) ->
  bb2_intersect_ray a r = Some (s, e) ->
  exists s' e', bb2_intersect_ray u r = Some (s', e') /\ Le s' s /\ Le e e'.
Proof.
  intros A l a b r s e Fl Ia u F Fd S H. apply (C58_monotone_2d_pf A a u r s e); try assumption.
  - rewrite Forall_forall in Fl. now apply Fl.
  - unfold u. clear u S H. revert a b Fl Ia. induction l as [|c l IH]; intros a b Fl Ia.
    + destruct Ia as [->|[]]. intros p Hp. exact Hp.
    + inversion Fl as [|? ? Ob Fl']. subst. inversion Fl' as [|? ? Oc Fl'']. subst. cbn [fold_left].
      assert (Ou : Ordered2 (bb2_union b c)) by (now apply (bb2_union_ordered (num_OrdLaws A))).
      assert (Fu : Forall Ordered2 (bb2_union b c :: l)) by (constructor; assumption).
      destruct Ia as [->|[->|Ia]].
      * eapply (Incl2_trans); [exact (bb2_union_l (num_OrdLaws A) a c Ob Oc) | apply (IH (bb2_union a c)); [assumption | now left]].
      * eapply (Incl2_trans); [exact (bb2_union_r (num_OrdLaws A) b a Ob Oc) | apply (IH (bb2_union b a)); [assumption | now left]].
      * apply IH; [assumption | now right].
Qed.
Lemma C58_union_keeps_hits_3d_pf : forall (A : arith) (l : list (BoundingBox3 (num A))) (a b : BoundingBox3 (num A)) (r : Ray3 (num A)) (s e : num A),
  Forall Ordered3 (b :: l) -> List.In a (b :: l) -> let u := fold_left bb3_union l b in
  Finite3 (r3_origin r) -> VFinite3 (r3_direction r) ->
  (forall d, Eqs (vcoord3 (r3_direction r) d) szero ->
     ~ Eqs (coord3 (r3_origin r) d) (coord3 (bb3_min u) d) /\ ~ Eqs (coord3 (r3_origin r) d) (coord3 (bb3_max u) d)) ->
  bb3_intersect_ray a r = Some (s, e) ->
  exists s' e', bb3_intersect_ray u r = Some (s', e') /\ Le s' s /\ Le e e'.
Proof.
  intros A l a b r s e Fl Ia u F Fd S H. apply (C58_monotone_3d_pf A a u r s e); try assumption.
  - rewrite Forall_forall in Fl. now apply Fl.
  - unfold u. clear u S H. revert a b Fl Ia. induction l as [|c l IH]; intros a b Fl Ia.
    + destruct Ia as [->|[]]. intros p Hp. exact Hp.
    + inversion Fl as [|? ? Ob Fl']. subst. inversion Fl' as [|? ? Oc Fl'']. subst. cbn [fold_left].
      assert (Ou : Ordered3 (bb3_union b c)) by (now apply (bb3_union_ordered (num_OrdLaws A))).
      assert (Fu : Forall Ordered3 (bb3_union b c :: l)) by (constructor; assumption).
      destruct Ia as [->|[->|Ia]].
      * eapply (Incl3_trans); [exact (bb3_union_l (num_OrdLaws A) a c Ob Oc) | apply (IH (bb3_union a c)); [assumption | now left]].
      * eapply (Incl3_trans); [exact (bb3_union_r (num_OrdLaws A) b a Ob Oc) | apply (IH (bb3_union b a)); [assumption | now left]].
      * apply IH; [assumption | now right].
Qed.
Lemma C19_empty_and_infinite_box_float_2d_pf : forall (A : arith) (r : Ray2 (num A)), Finite2 (r2_origin r) ->
  (exists s e, bb2_intersect_ray bb2_empty r = Some (s, e) /\ Eqs s szero /\ Eqs e sinf) /\
  (exists s e, bb2_intersect_ray bb2_infinite r = Some (s, e) /\ Eqs s szero /\ Eqs e sinf).
Proof.
  intros A r F.
  assert (G : forall b : BoundingBox2 (num A), (forall d, (tx (coord2 (bb2_min b) d) = PInf /\ tx (coord2 (bb2_max b) d) = NInf \/ tx (coord2 (bb2_min b) d) = NInf /\ tx (coord2 (bb2_max b) d) = PInf)) ->
    exists s e, bb2_intersect_ray b r = Some (s, e) /\ Eqs s szero /\ Eqs e sinf).
  { intros b B. rewrite ray2_unfold. cbv zeta.
    assert (K : forall d, _) by (intros d; exact (slab_infinite _ _ _ (vcoord2 (r2_direction r) d) (F d) (B d))).
    destruct (K D2X) as [Kx1 Kx2], (K D2Y) as [Ky1 Ky2].
    pose proof (max_zero _ _ zero_eq Kx1) as S1. pose proof (min_inf _ _ inf_eq Kx2) as E1.
    pose proof (max_zero _ _ S1 Ky1) as S2. pose proof (min_inf _ _ E1 Ky2) as E2.
    assert (T : forall s e : num A, Eqs s szero -> Eqs e sinf -> Le s e) by (intros s e Hs He; eapply Eqs_Le; [exact Hs|]; apply (Eqs_iff (num_OrdLaws A)) in He; eapply (Le_trans (num_OrdLaws A)); [apply Le_0_inf | apply He]).
    rewrite (gt_false _ _ (T _ _ S1 E1)). pose proof (T _ _ S2 E2) as Q. unfold Le in Q. rewrite Q. eauto. }
  split; apply G; intros []; cbn [bb2_empty bb2_infinite bb2_min bb2_max coord2 p2x p2y p2_new]; rewrite ?tx_inf, ?tx_ninf; auto.
Qed.
Lemma C19_empty_and_infinite_box_float_3d_pf : forall (A : arith) (r : Ray3 (num A)), Finite3 (r3_origin r) ->
  (exists s e, bb3_intersect_ray bb3_empty r = Some (s, e) /\ Eqs s szero /\ Eqs e sinf) /\
  (exists s e, bb3_intersect_ray bb3_infinite r = Some (s, e) /\ Eqs s szero /\ Eqs e sinf).
Proof.
  intros A r F.
  assert (G : forall b : BoundingBox3 (num A), (forall d, (tx (coord3 (bb3_min b) d) = PInf /\ tx (coord3 (bb3_max b) d) = NInf \/ tx (coord3 (bb3_min b) d) = NInf /\ tx (coord3 (bb3_max b) d) = PInf)) ->
    exists s e, bb3_intersect_ray b r = Some (s, e) /\ Eqs s szero /\ Eqs e sinf).
  { intros b B. rewrite ray3_unfold. cbv zeta.
    assert (K : forall d, _) by (intros d; exact (slab_infinite _ _ _ (vcoord3 (r3_direction r) d) (F d) (B d))).
    destruct (K D3X) as [Kx1 Kx2], (K D3Y) as [Ky1 Ky2], (K D3Z) as [Kz1 Kz2].
    pose proof (max_zero _ _ zero_eq Kx1) as S1. pose proof (min_inf _ _ inf_eq Kx2) as E1.
    pose proof (max_zero _ _ S1 Ky1) as S2. pose proof (min_inf _ _ E1 Ky2) as E2.
    pose proof (max_zero _ _ S2 Kz1) as S3. pose proof (min_inf _ _ E2 Kz2) as E3.
    assert (T : forall s e : num A, Eqs s szero -> Eqs e sinf -> Le s e) by (intros s e Hs He; eapply Eqs_Le; [exact Hs|]; apply (Eqs_iff (num_OrdLaws A)) in He; eapply (Le_trans (num_OrdLaws A)); [apply Le_0_inf | apply He]).
    rewrite (gt_false _ _ (T _ _ S1 E1)), (gt_false _ _ (T _ _ S2 E2)). pose proof (T _ _ S3 E3) as Q. unfold Le in Q. rewrite Q. eauto. }
  split; apply G; intros []; cbn [bb3_empty bb3_infinite bb3_min bb3_max coord3 p3x p3y p3z p3_new]; rewrite ?tx_inf, ?tx_ninf; auto.
Qed.
Lemma C07_union_with_empty_2d_pf : forall (A : arith) (b : BoundingBox2 (num A)), NoNaN2 (bb2_min b) -> NoNaN2 (bb2_max b) ->
  BEq2 (bb2_union bb2_empty b) (bb2_new (bb2_min b) (bb2_max b)) /\ BEq2 (bb2_union b bb2_empty) (bb2_new (bb2_min b) (bb2_max b)).
Proof.
  intros A b H1 H2. split; osolve (num_OrdLaws A).
Qed.
Lemma C07_union_with_empty_3d_pf : forall (A : arith) (b : BoundingBox3 (num A)), NoNaN3 (bb3_min b) -> NoNaN3 (bb3_max b) ->
  BEq3 (bb3_union bb3_empty b) (bb3_new (bb3_min b) (bb3_max b)) /\ BEq3 (bb3_union b bb3_empty) (bb3_new (bb3_min b) (bb3_max b)).
Proof.
  intros A b H1 H2. split; osolve (num_OrdLaws A).
Qed.
Lemma C11_intersect_empty_iff_2d_pf : forall (A : arith) (b : BoundingBox2 (num A)),
  (bb2_intersect b bb2_empty <> None <-> forall d, Le sinf (coord2 (bb2_max b) d) /\ Le (coord2 (bb2_min b) d) sninf) /\
  (bb2_intersect bb2_empty b <> None <-> forall d, Le sinf (coord2 (bb2_max b) d) /\ Le (coord2 (bb2_min b) d) sninf).
Proof.
  intros A b.
  assert (E1 : bb2_intersect b bb2_empty <> None <-> bb2_overlaps b bb2_empty = true) by (unfold bb2_intersect; destruct (bb2_overlaps b bb2_empty); split; congruence).
  assert (E2 : bb2_intersect bb2_empty b <> None <-> bb2_overlaps bb2_empty b = true) by (unfold bb2_intersect; destruct (bb2_overlaps bb2_empty b); split; congruence).
  rewrite E1, E2, forall_d2. unfold bb2_overlaps, bb2_empty, Le. cbn [bb2_min bb2_max p2_new coord2 p2x p2y p3x p3y p3z]. rewrite !andb_true_iff. tauto.
Qed.
Lemma C11_intersect_empty_iff_3d_pf : forall (A : arith) (b : BoundingBox3 (num A)),
  (bb3_intersect b bb3_empty <> None <-> forall d, Le sinf (coord3 (bb3_max b) d) /\ Le (coord3 (bb3_min b) d) sninf) /\
  (bb3_intersect bb3_empty b <> None <-> forall d, Le sinf (coord3 (bb3_max b) d) /\ Le (coord3 (bb3_min b) d) sninf).
Proof.
  intros A b.
  assert (E1 : bb3_intersect b bb3_empty <> None <-> bb3_overlaps b bb3_empty = true) by (unfold bb3_intersect; destruct (bb3_overlaps b bb3_empty); split; congruence).
  assert (E2 : bb3_intersect bb3_empty b <> None <-> bb3_overlaps bb3_empty b = true) by (unfold bb3_intersect; destruct (bb3_overlaps bb3_empty b); split; congruence).
  rewrite E1, E2, forall_d3. unfold bb3_overlaps, bb3_empty, Le. cbn [bb3_min bb3_max p3_new coord3 p2x p2y p3x p3y p3z]. rewrite !andb_true_iff. tauto.
Qed.
Section N.
Context {A : arith}.
Implicit Types x y : num A.
Definition NaNs x : Prop := tx x = XNaN.
Lemma N_addl x y : NaNs x -> NaNs (sadd x y).
Proof. intros H. unfold NaNs. rewrite tx_add, H. cbn. apply xr_xnan. Qed.
Lemma N_addr x y : NaNs y -> NaNs (sadd x y).
Proof. intros H. unfold NaNs. rewrite tx_add, H. destruct (tx x); cbn; apply xr_xnan. Qed.
Lemma N_subl x y : NaNs x -> NaNs (ssub x y).
Proof. intros H. unfold NaNs. rewrite tx_sub, H. cbn. apply xr_xnan. Qed.
Lemma N_mull x y : NaNs x -> NaNs (smul x y).
Proof. intros H. unfold NaNs. rewrite tx_mul, H. cbn. apply xr_xnan. Qed.
Lemma N_mulr x y : NaNs y -> NaNs (smul x y).
Proof. intros H. unfold NaNs. rewrite tx_mul, H. destruct (tx x); cbn; apply xr_xnan. Qed.
Lemma N_divl x y : NaNs x -> NaNs (sdiv x y).
Proof.
  intros H. unfold NaNs. destruct (tx y) as [a| | |] eqn:E; [destruct (Req_dec a 0) as [->|N]|..].
  - destruct (div_zero y E) as [b Z]. rewrite Z, H. destruct b; reflexivity.
  - rewrite tx_div by (rewrite E; congruence). rewrite H. cbn. apply xr_xnan.
  - rewrite tx_div by (rewrite E; congruence). rewrite H. cbn. apply xr_xnan.
  - rewrite tx_div by (rewrite E; congruence). rewrite H. cbn. apply xr_xnan.
  - now apply quo_nan.
Qed.
Lemma N_divr x y : NaNs y -> NaNs (sdiv x y).
Proof. intros H. now apply quo_nan. Qed.
Lemma N_snan x : NaNs x -> snan x = true.
Proof. intros H. rewrite tx_nan, H. reflexivity. Qed.
Lemma N_0_0 x y : tx x = Fin 0 -> tx y = Fin 0 -> NaNs (sdiv x y).
Proof.
  intros H K. unfold NaNs. destruct (div_zero y K) as [b Z]. rewrite Z, H. unfold zq, xsigned_inf.
  rewrite !Flocq.Core.Raux.Rlt_bool_false by lra. destruct b; reflexivity.
Qed.
Definition NV (v : Vector3 (num A)) : Prop := NaNs (v3x v) /\ NaNs (v3y v) /\ NaNs (v3z v).
Lemma N_norm0 (v : Vector3 (num A)) : tx (v3x v) = Fin 0 -> tx (v3y v) = Fin 0 -> tx (v3z v) = Fin 0 -> NV (v3_normalize v).
Proof.
  intros H1 H2 H3. assert (Z : tx (v3_length v) = Fin 0).
  { unfold v3_length, v3_dot. rewrite tx_sqrt, !tx_add, !tx_mul, H1, H2, H3. cbn [xmul]. rewrite !Rmult_0_l, !xr_0. cbn [xadd]. rewrite !Rplus_0_l, !xr_0. cbn [xadd]. rewrite !Rplus_0_l, !xr_0.
    cbn [xsqrt]. rewrite Flocq.Core.Raux.Rlt_bool_false by lra. rewrite sqrt_0. apply xr_0. }
  unfold v3_normalize, v3_div. repeat split; cbn [v3x v3y v3z v3_new]; now apply N_0_0.
Qed.
Lemma N_norm (v : Vector3 (num A)) : NV v -> NV (v3_normalize v).
Proof. intros (H1 & H2 & H3). unfold v3_normalize, v3_div. repeat split; cbn [v3x v3y v3z v3_new]; now apply N_divl. Qed.
Lemma N_crossl (v w : Vector3 (num A)) : NV v -> NV (v3_cross v w).
Proof. intros (H1 & H2 & H3). unfold v3_cross. repeat split; cbn [v3x v3y v3z v3_new]; now apply N_subl, N_mull. Qed.
Lemma N_crossr (v w : Vector3 (num A)) : NV w -> NV (v3_cross v w).
Proof. intros (H1 & H2 & H3). unfold v3_cross. repeat split; cbn [v3x v3y v3z v3_new]; now apply N_subl, N_mulr. Qed.
(* a NaN in the first column makes every entry of the inverse a NaN *)
Lemma N_inverse prof (m : Matrix4x4 (num A)) : NaNs (m4_0 m) ->
  exists i, m4_inverse prof m = Ret (Ok i) /\ Forall NaNs (m4_comps i).
Proof.
  intros H. rewrite m4_inverse_closed. assert (D : NaNs (det4 m)) by (unfold det4; now apply N_addl, N_addl, N_addl, N_mull).
  assert (E : seq (det4 m) szero = false) by (rewrite tx_eq, D; reflexivity). rewrite E. cbn [negb]. eexists. split; [reflexivity|].
  unfold m4_divs, m4_map, m4_comps. cbn [m4_0 m4_1 m4_2 m4_3 m4_4 m4_5 m4_6 m4_7 m4_8 m4_9 m4_10 m4_11 m4_12 m4_13 m4_14 m4_15].
  repeat constructor; now apply N_divr.
Qed.
Lemma sub_eq_zero x y : Finite x -> Eqs x y -> tx (ssub y x) = Fin 0.
Proof.
  intros F E. apply Finite_tx in F. destruct F as [r F]. apply Eqs_tx in E. destruct E as [E _]. rewrite tx_sub, <- E, F. cbn. replace (r + - r)%R with 0%R by ring. apply xr_0.
Qed.
End N.
Lemma C49_degenerate_gives_nan_float_pf : forall (A : arith) (prof : profile) (from target : Point3 (num A)) (up : Vector3 (num A)),
  (Finite3 from /\ PEq3 from target \/ forall d, Eqs (vcoord3 up d) szero) ->
  exists t, t3_look_at prof from target up = Ret (Ok t) /\
    (forall p d, snan (coord3 (t3_transform_point t p) d) = true) /\ (forall v d, snan (vcoord3 (t3_transform_vector t v) d) = true).
Proof.
  intros A prof from target up H. unfold t3_look_at.
  assert (R : NV (v3_normalize (v3_cross (v3_normalize up) (v3_normalize (p3_sub target from))))).
  { apply N_norm. destruct H as [[F E]|Z].
    - apply N_crossr, N_norm0; apply sub_eq_zero; first [exact (F D3X) | exact (F D3Y) | exact (F D3Z) | exact (E D3X) | exact (E D3Y) | exact (E D3Z)].
    - apply N_crossl, N_norm0; [pose proof (Z D3X) as Q | pose proof (Z D3Y) as Q | pose proof (Z D3Z) as Q]; apply Eqs_tx in Q; rewrite tx_0 in Q; apply Q. }
  assert (N0 : NaNs (m4_0 (m4_inverse_look_at from target up))) by (unfold m4_inverse_look_at; cbn [m4_new m4_0]; apply R).
  destruct (N_inverse prof _ N0) as (i & E & F). rewrite E. cbn [obind]. eexists. split; [reflexivity|].
  unfold m4_comps in F. repeat match goal with H : Forall _ (_ :: _) |- _ => inversion H; subst; clear H end.
  split; intros q []; unfold t3_transform_point, t3_transform_vector, m4_mul_point, m4_mul_vector, t3_new; cbn [t3_forward coord3 vcoord3 p3x p3y p3z v3x v3y v3z p3_new v3_new]; apply N_snan; repeat first [now apply N_mull | apply N_addl | apply N_divl].
Qed.
