(** Proofs: searching a bounding volume hierarchy (C93). *)
From Coq Require Import Bool NArith ZArith Reals List Lra Lia.
From Flocq Require Import Core.Zaux Core.Raux.
From Verif Require Import Scalar Types Vector2 Vector3 Point2 Point3 Ray BoundingBox2 BoundingBox3 Float
  XReal OrdLaws Arith SpecOrder SpecFloat SpecSame SpecClip SpecBvh OrderProofs OrderBox FloatX XArith FloatLaws SlabBase FloatRay FloatSym FloatClip FloatAxis ExVals.
Import ListNotations.
Section T2.
Context {A : arith}.
Notation L := (num_OrdLaws A).
Lemma tree2_ordered (t : tree2 (num A)) : Forall Ordered2 (leaves2 t) -> Ordered2 (bounds2 t).
Proof.
  induction t as [b|l IHl r IHr]; cbn [leaves2 bounds2]; intros H.
  - now inversion H.
  - apply Forall_app in H. destruct H as [Hl Hr]. apply (bb2_union_ordered L); auto.
Qed.
Lemma tree2_incl (t : tree2 (num A)) b : Forall Ordered2 (leaves2 t) -> In b (leaves2 t) -> Incl2 b (bounds2 t).
Proof.
  induction t as [c|l IHl r IHr]; cbn [leaves2 bounds2]; intros H I.
  - destruct I as [->|[]]. intros p Hp. exact Hp.
  - apply Forall_app in H. destruct H as [Hl Hr]. apply in_app_iff in I. destruct I as [I|I].
    + eapply Incl2_trans; [exact (IHl Hl I) | apply (bb2_union_l L); now apply tree2_ordered].
    + eapply Incl2_trans; [exact (IHr Hr I) | apply (bb2_union_r L); now apply tree2_ordered].
Qed.
Lemma tree2_hit (t : tree2 (num A)) (r : Ray2 (num A)) b s e : Forall Ordered2 (leaves2 t) -> Finite2 (r2_origin r) -> VFinite2 (r2_direction r) -> TreeOk2 r t ->
  In b (leaves2 t) -> bb2_intersect_ray b r = Some (s, e) -> exists s' e', bb2_intersect_ray (bounds2 t) r = Some (s', e') /\ Le s' s /\ Le e e'.
Proof.
  intros H F V G I E. destruct t as [c|l q].
  - destruct I as [->|[]]. exists s, e. split; [exact E|]. pose proof (ray_xres2 b r) as X. rewrite E in X. cbn [xres] in X. destruct X as (X & X1 & X2). rewrite <- X1, <- X2 in X.
    split; apply Le_tx, xle_rfl; [exact (xle_n1 _ _ X) | exact (xle_n2 _ _ X)].
  - eapply C58_monotone_2d_pf; try eassumption; [|now apply tree2_incl | exact (proj1 G)]. rewrite Forall_forall in H. now apply H.
Qed.
Lemma search2_none (t : tree2 (num A)) (r : Ray2 (num A)) : Forall Ordered2 (leaves2 t) -> Finite2 (r2_origin r) -> VFinite2 (r2_direction r) -> TreeOk2 r t ->
  hits2 r (bounds2 t) = false -> filter (hits2 r) (leaves2 t) = [].
Proof.
  intros H F V G N. assert (K : forall b, In b (leaves2 t) -> hits2 r b = false).
  { intros b I. unfold hits2 in *. destruct (bb2_intersect_ray b r) as [[s e]|] eqn:E; [|reflexivity]. destruct (tree2_hit t r b s e H F V G I E) as (s' & e' & E' & _). rewrite E' in N. discriminate. }
  induction (leaves2 t) as [|b l IH]; [reflexivity|]. cbn [filter]. rewrite (K b (or_introl eq_refl)). apply IH; [now inversion H | intros c Hc; apply K; now right].
Qed.
Lemma near2_inv (r : Ray2 (num A)) : Finite2 (r2_origin r) -> VFinite2 (r2_direction r) -> forall (t : tree2 (num A)) (best : num A), Forall Ordered2 (leaves2 t) -> TreeOk2 r t -> NoNaN best ->
  let m := nearest2 r t best in Le m best /\ (forall b s e, In b (leaves2 t) -> bb2_intersect_ray b r = Some (s, e) -> Le m s) /\
  (m = best \/ exists b e, In b (leaves2 t) /\ bb2_intersect_ray b r = Some (m, e)).
Proof.
  intros F V. induction t as [c|l IHl q IHq]; intros best H G N; cbv zeta.
  - cbn [nearest2 bounds2 leaves2]. pose proof (ray_xres2 c r) as X. destruct (bb2_intersect_ray c r) as [[s e]|] eqn:E; cbn [xres] in X.
    + assert (Ns : NoNaN s) by (destruct X as (X & Es & _); unfold NoNaN; rewrite tx_nan, Es; exact (xle_n1 _ _ X)). destruct (slt s best) eqn:Q.
      * split; [|split].
        -- apply (Lt_iff L) in Q. destruct Q as (_ & _ & Q). destruct (Le_total L s best Ns N); tauto.
        -- intros b s' e' [<-|[]] E'. rewrite E in E'. injection E' as <- _. now apply (Le_refl L).
        -- right. exists c, e. split; [now left | exact E].
      * split; [now apply (Le_refl L)|]. split; [|now left]. intros b s' e' [<-|[]] E'. rewrite E in E'. injection E' as <- _. now apply (not_Lt_Le L).
    + split; [now apply (Le_refl L)|]. split; [|now left]. intros b s' e' [<-|[]] E'. congruence.
  - pose proof (tree2_hit (Node2 l q) r) as TH. cbn [nearest2]. cbn [leaves2] in *. pose proof H as H0. apply Forall_app in H. destruct H as [Hl Hq]. pose proof G as G0. destruct G as (_ & Gl & Gq).
    destruct (bb2_intersect_ray (bounds2 (Node2 l q)) r) as [[s0 e0]|] eqn:E0.
    + pose proof (ray_xres2 (bounds2 (Node2 l q)) r) as X. rewrite E0 in X. cbn [xres] in X. assert (Ns : NoNaN s0) by (destruct X as (X & Es & _); unfold NoNaN; rewrite tx_nan, Es; exact (xle_n1 _ _ X)).
      destruct (slt s0 best) eqn:Q.
      * destruct (IHl best Hl Gl N) as (L1 & L2 & L3). assert (N1 : NoNaN (nearest2 r l best)) by exact (proj1 (Le_nan L _ _ L1)).
        destruct (IHq (nearest2 r l best) Hq Gq N1) as (Q1 & Q2 & Q3). split; [exact (Le_trans L _ _ _ Q1 L1)|]. split.
        -- intros b s e I E. apply in_app_iff in I. destruct I as [I|I]; [exact (Le_trans L _ _ _ Q1 (L2 b s e I E)) | exact (Q2 b s e I E)].
        -- destruct Q3 as [Q3|(b & e & I & E)]; [rewrite Q3; destruct L3 as [L3|(b & e & I & E)]; [now left|]|]; right; exists b, e; (split; [apply in_app_iff; tauto | exact E]).
      * split; [now apply (Le_refl L)|]. split; [|now left]. intros b s e I E. destruct (TH b s e H0 F V G0 I E) as (s' & e' & E' & K & _). try rewrite E0 in E'. injection E' as <- _.
        eapply (Le_trans L); [|exact K]. now apply (not_Lt_Le L).
    + split; [now apply (Le_refl L)|]. split; [|now left]. intros b s e I E. destruct (TH b s e H0 F V G0 I E) as (s' & e' & E' & _). try rewrite E0 in E'. discriminate.
Qed.
End T2.
Section T3.
Context {A : arith}.
Notation L := (num_OrdLaws A).
Lemma tree3_ordered (t : tree3 (num A)) : Forall Ordered3 (leaves3 t) -> Ordered3 (bounds3 t).
Proof.
  induction t as [b|l IHl r IHr]; cbn [leaves3 bounds3]; intros H.
  - now inversion H.
  - apply Forall_app in H. destruct H as [Hl Hr]. apply (bb3_union_ordered L); auto.
Qed.
Lemma tree3_incl (t : tree3 (num A)) b : Forall Ordered3 (leaves3 t) -> In b (leaves3 t) -> Incl3 b (bounds3 t).
Proof.
  induction t as [c|l IHl r IHr]; cbn [leaves3 bounds3]; intros H I.
  - destruct I as [->|[]]. intros p Hp. exact Hp.
  - apply Forall_app in H. destruct H as [Hl Hr]. apply in_app_iff in I. destruct I as [I|I].
    + eapply Incl3_trans; [exact (IHl Hl I) | apply (bb3_union_l L); now apply tree3_ordered].
    + eapply Incl3_trans; [exact (IHr Hr I) | apply (bb3_union_r L); now apply tree3_ordered].
Qed.
Lemma tree3_hit (t : tree3 (num A)) (r : Ray3 (num A)) b s e : Forall Ordered3 (leaves3 t) -> Finite3 (r3_origin r) -> VFinite3 (r3_direction r) -> TreeOk3 r t ->
  In b (leaves3 t) -> bb3_intersect_ray b r = Some (s, e) -> exists s' e', bb3_intersect_ray (bounds3 t) r = Some (s', e') /\ Le s' s /\ Le e e'.
Proof.
  intros H F V G I E. destruct t as [c|l q].
  - destruct I as [->|[]]. exists s, e. split; [exact E|]. pose proof (ray_xres3 b r) as X. rewrite E in X. cbn [xres] in X. destruct X as (X & X1 & X2). rewrite <- X1, <- X2 in X.
    split; apply Le_tx, xle_rfl; [exact (xle_n1 _ _ X) | exact (xle_n2 _ _ X)].
  - eapply C58_monotone_3d_pf; try eassumption; [|now apply tree3_incl | exact (proj1 G)]. rewrite Forall_forall in H. now apply H.
Qed.
Lemma search3_none (t : tree3 (num A)) (r : Ray3 (num A)) : Forall Ordered3 (leaves3 t) -> Finite3 (r3_origin r) -> VFinite3 (r3_direction r) -> TreeOk3 r t ->
  hits3 r (bounds3 t) = false -> filter (hits3 r) (leaves3 t) = [].
Proof.
  intros H F V G N. assert (K : forall b, In b (leaves3 t) -> hits3 r b = false).
  { intros b I. unfold hits3 in *. destruct (bb3_intersect_ray b r) as [[s e]|] eqn:E; [|reflexivity]. destruct (tree3_hit t r b s e H F V G I E) as (s' & e' & E' & _). rewrite E' in N. discriminate. }
  induction (leaves3 t) as [|b l IH]; [reflexivity|]. cbn [filter]. rewrite (K b (or_introl eq_refl)). apply IH; [now inversion H | intros c Hc; apply K; now right].
Qed.
Lemma near3_inv (r : Ray3 (num A)) : Finite3 (r3_origin r) -> VFinite3 (r3_direction r) -> forall (t : tree3 (num A)) (best : num A), Forall Ordered3 (leaves3 t) -> TreeOk3 r t -> NoNaN best ->
  let m := nearest3 r t best in Le m best /\ (forall b s e, In b (leaves3 t) -> bb3_intersect_ray b r = Some (s, e) -> Le m s) /\
  (m = best \/ exists b e, In b (leaves3 t) /\ bb3_intersect_ray b r = Some (m, e)).
Proof.
  intros F V. induction t as [c|l IHl q IHq]; intros best H G N; cbv zeta.
  - cbn [nearest3 bounds3 leaves3]. pose proof (ray_xres3 c r) as X. destruct (bb3_intersect_ray c r) as [[s e]|] eqn:E; cbn [xres] in X.
    + assert (Ns : NoNaN s) by (destruct X as (X & Es & _); unfold NoNaN; rewrite tx_nan, Es; exact (xle_n1 _ _ X)). destruct (slt s best) eqn:Q.
      * split; [|split].
        -- apply (Lt_iff L) in Q. destruct Q as (_ & _ & Q). destruct (Le_total L s best Ns N); tauto.
        -- intros b s' e' [<-|[]] E'. rewrite E in E'. injection E' as <- _. now apply (Le_refl L).
        -- right. exists c, e. split; [now left | exact E].
      * split; [now apply (Le_refl L)|]. split; [|now left]. intros b s' e' [<-|[]] E'. rewrite E in E'. injection E' as <- _. now apply (not_Lt_Le L).
    + split; [now apply (Le_refl L)|]. split; [|now left]. intros b s' e' [<-|[]] E'. congruence.
  - pose proof (tree3_hit (Node3 l q) r) as TH. cbn [nearest3]. cbn [leaves3] in *. pose proof H as H0. apply Forall_app in H. destruct H as [Hl Hq]. pose proof G as G0. destruct G as (_ & Gl & Gq).
    destruct (bb3_intersect_ray (bounds3 (Node3 l q)) r) as [[s0 e0]|] eqn:E0.
    + pose proof (ray_xres3 (bounds3 (Node3 l q)) r) as X. rewrite E0 in X. cbn [xres] in X. assert (Ns : NoNaN s0) by (destruct X as (X & Es & _); unfold NoNaN; rewrite tx_nan, Es; exact (xle_n1 _ _ X)).
      destruct (slt s0 best) eqn:Q.
      * destruct (IHl best Hl Gl N) as (L1 & L2 & L3). assert (N1 : NoNaN (nearest3 r l best)) by exact (proj1 (Le_nan L _ _ L1)).
        destruct (IHq (nearest3 r l best) Hq Gq N1) as (Q1 & Q2 & Q3). split; [exact (Le_trans L _ _ _ Q1 L1)|]. split.
        -- intros b s e I E. apply in_app_iff in I. destruct I as [I|I]; [exact (Le_trans L _ _ _ Q1 (L2 b s e I E)) | exact (Q2 b s e I E)].
        -- destruct Q3 as [Q3|(b & e & I & E)]; [rewrite Q3; destruct L3 as [L3|(b & e & I & E)]; [now left|]|]; right; exists b, e; (split; [apply in_app_iff; tauto | exact E]).
      * split; [now apply (Le_refl L)|]. split; [|now left]. intros b s e I E. destruct (TH b s e H0 F V G0 I E) as (s' & e' & E' & K & _). try rewrite E0 in E'. injection E' as <- _.
        eapply (Le_trans L); [|exact K]. now apply (not_Lt_Le L).
    + split; [now apply (Le_refl L)|]. split; [|now left]. intros b s e I E. destruct (TH b s e H0 F V G0 I E) as (s' & e' & E' & _). try rewrite E0 in E'. discriminate.
Qed.
End T3.
Lemma C93_search_complete_2d_pf : forall (A : arith) (t : tree2 (num A)) (r : Ray2 (num A)), Forall Ordered2 (leaves2 t) -> Finite2 (r2_origin r) -> VFinite2 (r2_direction r) -> TreeOk2 r t ->
  search2 r t = filter (hits2 r) (leaves2 t).
Proof.
  intros A t r. induction t as [c|l IHl q IHq]; intros H F V G.
  - cbn [search2 bounds2 leaves2 filter]. destruct (hits2 r c); reflexivity.
  - cbn [search2]. destruct (hits2 r (bounds2 (Node2 l q))) eqn:E; [|symmetry; now apply search2_none].
    cbn [leaves2] in *. apply Forall_app in H. destruct H as [Hl Hq]. destruct G as (_ & Gl & Gq). rewrite filter_app, IHl, IHq by assumption. reflexivity.
Qed.
Lemma C93_search_complete_3d_pf : forall (A : arith) (t : tree3 (num A)) (r : Ray3 (num A)), Forall Ordered3 (leaves3 t) -> Finite3 (r3_origin r) -> VFinite3 (r3_direction r) -> TreeOk3 r t ->
  search3 r t = filter (hits3 r) (leaves3 t).
Proof.
  intros A t r. induction t as [c|l IHl q IHq]; intros H F V G.
  - cbn [search3 bounds3 leaves3 filter]. destruct (hits3 r c); reflexivity.
  - cbn [search3]. destruct (hits3 r (bounds3 (Node3 l q))) eqn:E; [|symmetry; now apply search3_none].
    cbn [leaves3] in *. apply Forall_app in H. destruct H as [Hl Hq]. destruct G as (_ & Gl & Gq). rewrite filter_app, IHl, IHq by assumption. reflexivity.
Qed.
Lemma C93_nearest_correct_2d_pf : forall (A : arith) (t : tree2 (num A)) (r : Ray2 (num A)), Forall Ordered2 (leaves2 t) -> Finite2 (r2_origin r) -> VFinite2 (r2_direction r) -> TreeOk2 r t ->
  let m := nearest2 r t sinf in
  (forall b s e, In b (leaves2 t) -> bb2_intersect_ray b r = Some (s, e) -> Le m s) /\
  (m = sinf \/ exists b e, In b (leaves2 t) /\ bb2_intersect_ray b r = Some (m, e)).
Proof.
  intros A t r H F V G. cbv zeta. destruct (near2_inv r F V t sinf H G inf_num) as (_ & K1 & K2). split; assumption.
Qed.
Lemma C93_nearest_correct_3d_pf : forall (A : arith) (t : tree3 (num A)) (r : Ray3 (num A)), Forall Ordered3 (leaves3 t) -> Finite3 (r3_origin r) -> VFinite3 (r3_direction r) -> TreeOk3 r t ->
  let m := nearest3 r t sinf in
  (forall b s e, In b (leaves3 t) -> bb3_intersect_ray b r = Some (s, e) -> Le m s) /\
  (m = sinf \/ exists b e, In b (leaves3 t) /\ bb3_intersect_ray b r = Some (m, e)).
Proof.
  intros A t r H F V G. cbv zeta. destruct (near3_inv r F V t sinf H G inf_num) as (_ & K1 & K2). split; assumption.
Qed.
Lemma C93_grazing_hit_lost_pf : let a := mkBB2 (mkPoint2 (d64 1 0) (d64 0 0)) (mkPoint2 (d64 2 0) (d64 0 0)) in let b := mkBB2 (mkPoint2 (d64 1 0) (d64 0 0)) (mkPoint2 (d64 2 0) (d64 1 0)) in
  let r := mkRay2 (mkPoint2 (d64 0 0) (d64 0 0)) (mkVector2 (d64 1 0) (d64 0 0)) in let t := Node2 (Leaf2 a) (Leaf2 b) : tree2 (num A64) in
  Ordered2 a /\ Ordered2 b /\ Finite2 (r2_origin r) /\ VFinite2 (r2_direction r) /\ hits2 r a = true /\ search2 r t = [] /\ Eqs (nearest2 r t sinf) sinf.
Proof.
  cbv zeta. conjs; try (intros []; vm_compute; reflexivity); vm_compute; reflexivity.
Qed.
