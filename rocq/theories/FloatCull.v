(** Proofs: boxes against half-spaces (C112). *)
From Coq Require Import Bool NArith ZArith Reals List Lra Lia.
From Flocq Require Import Core.Zaux Core.Raux.
From Verif Require Import Scalar Types Vector2 Vector3 Point2 Point3 Ray BoundingBox2 BoundingBox3 Float
  XReal OrdLaws Arith SpecOrder SpecFloat SpecErr SpecReal SpecNear SpecHull SpecBall SpecCull OrderProofs OrderBox FloatX XArith FloatLaws SlabBase FloatSym ExVals ErrBase FloatTrans FloatMono FloatNear FloatHull FloatOct FloatBall.
Import ListNotations.
Local Open Scope R_scope.
Lemma fin_min {A : arith} (x y : num A) : Finite x -> Finite y -> Finite (s_min x y).
Proof. rewrite !Finite_tx, tx_smin. intros [a ->] [b ->]. unfold xmin. repeat match goal with |- context [if ?c then _ else _] => destruct c | |- context [match ?c with _ => _ end] => destruct c end; eauto. Qed.
Lemma fin_max {A : arith} (x y : num A) : Finite x -> Finite y -> Finite (s_max x y).
Proof. rewrite !Finite_tx, tx_smax. intros [a ->] [b ->]. unfold xmax. repeat match goal with |- context [if ?c then _ else _] => destruct c | |- context [match ?c with _ => _ end] => destruct c end; eauto. Qed.
Lemma lt_not_le {A : arith} (k x y : num A) : slt k x = true -> Le x y -> sle y k = false.
Proof. intros H K. destruct (sle y k) eqn:E; [|reflexivity]. rewrite (not_lt_le x k (le_trans _ _ _ K E)) in H. discriminate. Qed.
Lemma support2_lt {A : arith} (v : Vector2 (num A)) : (support2 v < 2 ^ 2)%N.
Proof. unfold support2. repeat match goal with |- context [if ?c then _ else _] => destruct c end; reflexivity. Qed.
Lemma support2_cc {A : arith} (prof : profile) (b : BoundingBox2 (num A)) (v : Vector2 (num A)) : exists f, bb2_corner prof b (support2 v) = Ret (cc2 b f).
Proof. destruct (idx2_all _ (support2_lt v)) as [f E]. exists f. rewrite E. apply corner_cc2. Qed.
Lemma ext2 {A : arith} (prof : profile) h (b : BoundingBox2 (num A)) nk p : Dots2 prof h b -> In nk h -> Finite2 p -> In2 p b -> exists f g,
  bb2_corner prof b (support2 (v2_neg (fst nk))) = Ret (cc2 b f) /\ bb2_corner prof b (support2 (fst nk)) = Ret (cc2 b g) /\
  Finite (v2_dot (fst nk) (v2_from p)) /\ Le (v2_dot (fst nk) (v2_from (cc2 b f))) (v2_dot (fst nk) (v2_from p)) /\ Le (v2_dot (fst nk) (v2_from p)) (v2_dot (fst nk) (v2_from (cc2 b g))).
Proof.
  intros D I F Ip. destruct (C105_extreme_corners_2d_pf A prof b (fst nk) p) as (lo & hi & E1 & E2 & K); [now apply bb2_is_inside_iff | assumption|].
  destruct (support2_cc prof b (v2_neg (fst nk))) as [f Ef]. destruct (support2_cc prof b (fst nk)) as [g Eg]. rewrite Ef in E1. rewrite Eg in E2. injection E1 as <-. injection E2 as <-. exists f, g. split; [assumption|]. split; [assumption|]. apply K; apply D; try assumption; apply cc2_corners.
Qed.
Lemma support3_lt {A : arith} (v : Vector3 (num A)) : (support3 v < 2 ^ 3)%N.
Proof. unfold support3. repeat match goal with |- context [if ?c then _ else _] => destruct c end; reflexivity. Qed.
Lemma support3_cc {A : arith} (prof : profile) (b : BoundingBox3 (num A)) (v : Vector3 (num A)) : exists f, bb3_corner prof b (support3 v) = Ret (cc3 b f).
Proof. destruct (idx3_all _ (support3_lt v)) as [f E]. exists f. rewrite E. apply corner_cc3. Qed.
Lemma ext3 {A : arith} (prof : profile) h (b : BoundingBox3 (num A)) nk p : Dots3 prof h b -> In nk h -> Finite3 p -> In3 p b -> exists f g,
  bb3_corner prof b (support3 (v3_neg (fst nk))) = Ret (cc3 b f) /\ bb3_corner prof b (support3 (fst nk)) = Ret (cc3 b g) /\
  Finite (v3_dot (fst nk) (v3_from p)) /\ Le (v3_dot (fst nk) (v3_from (cc3 b f))) (v3_dot (fst nk) (v3_from p)) /\ Le (v3_dot (fst nk) (v3_from p)) (v3_dot (fst nk) (v3_from (cc3 b g))).
Proof.
  intros D I F Ip. destruct (C105_extreme_corners_3d_pf A prof b (fst nk) p) as (lo & hi & E1 & E2 & K); [now apply bb3_is_inside_iff | assumption|].
  destruct (support3_cc prof b (v3_neg (fst nk))) as [f Ef]. destruct (support3_cc prof b (fst nk)) as [g Eg]. rewrite Ef in E1. rewrite Eg in E2. injection E1 as <-. injection E2 as <-. exists f, g. split; [assumption|]. split; [assumption|]. apply K; apply D; try assumption; apply cc3_corners.
Qed.
Lemma C112_culling_2d_pf : forall (A : arith) (prof : profile) (h : list (Vector2 (num A) * num A)) (b : BoundingBox2 (num A)) (p : Point2 (num A)), Dots2 prof h b -> Finite2 p -> bb2_is_inside b p = true ->
  (culled2 prof h b = true -> in_region2 h p = false) /\ (taken2 prof h b = true -> in_region2 h p = true).
Proof.
  intros A prof h b p D F I. apply bb2_is_inside_iff in I. split; intros H.
  - apply existsb_exists in H. destruct H as (nk & Ink & H). destruct (ext2 prof h b nk p D Ink F I) as (f & g & E1 & E2 & _ & K1 & _). rewrite E1 in H.
    apply not_true_is_false. unfold in_region2. rewrite forallb_forall. intros Q. specialize (Q nk Ink). rewrite (lt_not_le _ _ _ H K1) in Q. discriminate.
  - unfold in_region2, taken2 in *. rewrite forallb_forall in *. intros nk Ink. specialize (H nk Ink). destruct (ext2 prof h b nk p D Ink F I) as (f & g & E1 & E2 & _ & _ & K2). rewrite E2 in H. exact (Le_trans (num_OrdLaws A) _ _ _ K2 H).
Qed.
Lemma C112_culling_3d_pf : forall (A : arith) (prof : profile) (h : list (Vector3 (num A) * num A)) (b : BoundingBox3 (num A)) (p : Point3 (num A)), Dots3 prof h b -> Finite3 p -> bb3_is_inside b p = true ->
  (culled3 prof h b = true -> in_region3 h p = false) /\ (taken3 prof h b = true -> in_region3 h p = true).
Proof.
  intros A prof h b p D F I. apply bb3_is_inside_iff in I. split; intros H.
  - apply existsb_exists in H. destruct H as (nk & Ink & H). destruct (ext3 prof h b nk p D Ink F I) as (f & g & E1 & E2 & _ & K1 & _). rewrite E1 in H.
    apply not_true_is_false. unfold in_region3. rewrite forallb_forall. intros Q. specialize (Q nk Ink). rewrite (lt_not_le _ _ _ H K1) in Q. discriminate.
  - unfold in_region3, taken3 in *. rewrite forallb_forall in *. intros nk Ink. specialize (H nk Ink). destruct (ext3 prof h b nk p D Ink F I) as (f & g & E1 & E2 & _ & _ & K2). rewrite E2 in H. exact (Le_trans (num_OrdLaws A) _ _ _ K2 H).
Qed.
Lemma C112_exact_2d_pf : forall (A : arith) (prof : profile) (h : list (Vector2 (num A) * num A)) (b : BoundingBox2 (num A)), Ordered2 b -> BFinite2 b -> Dots2 prof h b ->
  (taken2 prof h b = true <-> forall p, Finite2 p -> bb2_is_inside b p = true -> in_region2 h p = true) /\
  (forall nk, In nk h -> NoNaN (snd nk) -> (culled2 prof [nk] b = true <-> forall p, Finite2 p -> bb2_is_inside b p = true -> in_region2 [nk] p = false)).
Proof.
  intros A prof h b O B D. assert (C : forall f, Finite2 (cc2 b f) /\ bb2_is_inside b (cc2 b f) = true).
  { intros f. split; [apply cpt2_fin; assumption|]. apply bb2_is_inside_iff, (corners2_inside prof b); [assumption | apply cc2_corners]. }
  split.
  - split; [intros H p F I; now apply (C112_culling_2d_pf A prof h b p D F I)|]. intros H. unfold taken2. apply forallb_forall. intros nk Ink. destruct (support2_cc prof b (fst nk)) as [f E]. rewrite E. destruct (C f) as [C1 C2]. specialize (H _ C1 C2). unfold in_region2 in H. rewrite forallb_forall in H. exact (H nk Ink).
  - intros nk Ink N. assert (D1 : Dots2 prof [nk] b) by (intros nk' c [<-|[]] Ic; now apply D). split; [intros H p F I; now apply (C112_culling_2d_pf A prof [nk] b p D1 F I)|]. intros H. unfold culled2. cbn [existsb]. rewrite orb_false_r.
    destruct (support2_cc prof b (v2_neg (fst nk))) as [f E]. rewrite E. destruct (C f) as [C1 C2]. specialize (H _ C1 C2). unfold in_region2 in H. cbn [forallb] in H. rewrite andb_true_r in H. pose proof (D nk (cc2 b f) Ink (cc2_corners prof b f)) as Fd.
    unfold NoNaN in N. rewrite tx_nan in N. rewrite tx_le, (Finite_real _ Fd) in H. rewrite tx_lt, (Finite_real _ Fd). destruct (tx (snd nk)); cbn in *; try easy. destruct (Rle_bool_spec (real_of (v2_dot (fst nk) (v2_from (cc2 b f)))) r); [discriminate|]. now apply Rlt_bool_true.
Qed.
Lemma C112_exact_3d_pf : forall (A : arith) (prof : profile) (h : list (Vector3 (num A) * num A)) (b : BoundingBox3 (num A)), Ordered3 b -> BFinite3 b -> Dots3 prof h b ->
  (taken3 prof h b = true <-> forall p, Finite3 p -> bb3_is_inside b p = true -> in_region3 h p = true) /\
  (forall nk, In nk h -> NoNaN (snd nk) -> (culled3 prof [nk] b = true <-> forall p, Finite3 p -> bb3_is_inside b p = true -> in_region3 [nk] p = false)).
Proof.
  intros A prof h b O B D. assert (C : forall f, Finite3 (cc3 b f) /\ bb3_is_inside b (cc3 b f) = true).
  { intros f. split; [apply cpt3_fin; assumption|]. apply bb3_is_inside_iff, (corners3_inside prof b); [assumption | apply cc3_corners]. }
  split.
  - split; [intros H p F I; now apply (C112_culling_3d_pf A prof h b p D F I)|]. intros H. unfold taken3. apply forallb_forall. intros nk Ink. destruct (support3_cc prof b (fst nk)) as [f E]. rewrite E. destruct (C f) as [C1 C2]. specialize (H _ C1 C2). unfold in_region3 in H. rewrite forallb_forall in H. exact (H nk Ink).
  - intros nk Ink N. assert (D1 : Dots3 prof [nk] b) by (intros nk' c [<-|[]] Ic; now apply D). split; [intros H p F I; now apply (C112_culling_3d_pf A prof [nk] b p D1 F I)|]. intros H. unfold culled3. cbn [existsb]. rewrite orb_false_r.
    destruct (support3_cc prof b (v3_neg (fst nk))) as [f E]. rewrite E. destruct (C f) as [C1 C2]. specialize (H _ C1 C2). unfold in_region3 in H. cbn [forallb] in H. rewrite andb_true_r in H. pose proof (D nk (cc3 b f) Ink (cc3_corners prof b f)) as Fd.
    unfold NoNaN in N. rewrite tx_nan in N. rewrite tx_le, (Finite_real _ Fd) in H. rewrite tx_lt, (Finite_real _ Fd). destruct (tx (snd nk)); cbn in *; try easy. destruct (Rle_bool_spec (real_of (v3_dot (fst nk) (v3_from (cc3 b f)))) r); [discriminate|]. now apply Rlt_bool_true.
Qed.
Lemma corner2_finite {A : arith} (prof : profile) (b : BoundingBox2 (num A)) c : BFinite2 b -> In c (corners2 prof b) -> Finite2 c.
Proof. intros B I. destruct (corners2_cc prof b c I) as [f ->]. now apply cpt2_fin. Qed.
Lemma tree2_finite {A : arith} (t : ptree2 (num A)) : Forall Finite2 (points2 t) -> BFinite2 (pbounds2 t).
Proof.
  induction t as [p|a IHa b IHb]; intros H.
  - inversion H as [|? ? F _]; subst. split; intros d; specialize (F d); destruct d; first [now apply fin_min | now apply fin_max].
  - cbn [points2] in H. apply Forall_app in H. destruct H as [Ha Hb]. destruct (IHa Ha) as [A1 A2], (IHb Hb) as [B1 B2].
    split; intros d; specialize (A1 d); specialize (A2 d); specialize (B1 d); specialize (B2 d); destruct d; (apply fin_min || apply fin_max); first [now apply fin_min | now apply fin_max].
Qed.
Lemma corner3_finite {A : arith} (prof : profile) (b : BoundingBox3 (num A)) c : BFinite3 b -> In c (corners3 prof b) -> Finite3 c.
Proof. intros B I. destruct (corners3_cc prof b c I) as [f ->]. now apply cpt3_fin. Qed.
Lemma tree3_finite {A : arith} (t : ptree3 (num A)) : Forall Finite3 (points3 t) -> BFinite3 (pbounds3 t).
Proof.
  induction t as [p|a IHa b IHb]; intros H.
  - inversion H as [|? ? F _]; subst. split; intros d; specialize (F d); destruct d; first [now apply fin_min | now apply fin_max].
  - cbn [points3] in H. apply Forall_app in H. destruct H as [Ha Hb]. destruct (IHa Ha) as [A1 A2], (IHb Hb) as [B1 B2].
    split; intros d; specialize (A1 d); specialize (A2 d); specialize (B1 d); specialize (B2 d); destruct d; (apply fin_min || apply fin_max); first [now apply fin_min | now apply fin_max].
Qed.
Lemma C112_visible_2d_pf : forall (A : arith) (prof : profile) (h : list (Vector2 (num A) * num A)) (t : ptree2 (num A)), Forall Finite2 (points2 t) -> Dots2 prof h (pbounds2 t) ->
  visible2 prof h t = filter (in_region2 h) (points2 t).
Proof.
  intros A prof h t. pose proof (num_OrdLaws A) as L. induction t as [p|a IHa b IHb]; intros F D; (assert (N : Forall NoNaN2 (points2 _)) by exact (Forall_impl _ (fun p (Fp : Finite2 p) d => finite_NoNaN _ (Fp d)) F));
    destruct (ptree2_ok _ N) as [O I]; cbn [visible2]; (destruct (culled2 prof h _) eqn:EC; [symmetry; apply filter_none; intros q Iq; apply (C112_culling_2d_pf A prof h _ q D); [rewrite Forall_forall in F; now apply F | apply bb2_is_inside_iff; now apply I | exact EC]|]);
    (destruct (taken2 prof h _) eqn:ET; [symmetry; apply filter_all; intros q Iq; apply (C112_culling_2d_pf A prof h _ q D); [rewrite Forall_forall in F; now apply F | apply bb2_is_inside_iff; now apply I | exact ET]|]).
  - reflexivity.
  - cbn [points2] in *. rewrite filter_app. apply Forall_app in F, N. destruct F as [Fa Fb], N as [Na Nb]. destruct (ptree2_ok a Na) as [Oa Ia], (ptree2_ok b Nb) as [Ob Ib]. rewrite IHa, IHb; [reflexivity | assumption | | assumption | ].
    + intros nk c Ink Ic. destruct (ext2 prof h _ nk c D Ink) as (_ & _ & _ & _ & K & _); [| |exact K].
      * exact (corner2_finite prof _ c (tree2_finite b Fb) Ic).
      * apply (bb2_union_r L _ _ Oa Ob). exact (corners2_inside prof _ c Ob Ic).
    + intros nk c Ink Ic. destruct (ext2 prof h _ nk c D Ink) as (_ & _ & _ & _ & K & _); [| |exact K].
      * exact (corner2_finite prof _ c (tree2_finite a Fa) Ic).
      * apply (bb2_union_l L _ _ Oa Ob). exact (corners2_inside prof _ c Oa Ic).
Qed.
Lemma C112_visible_3d_pf : forall (A : arith) (prof : profile) (h : list (Vector3 (num A) * num A)) (t : ptree3 (num A)), Forall Finite3 (points3 t) -> Dots3 prof h (pbounds3 t) ->
  visible3 prof h t = filter (in_region3 h) (points3 t).
Proof.
  intros A prof h t. pose proof (num_OrdLaws A) as L. induction t as [p|a IHa b IHb]; intros F D; (assert (N : Forall NoNaN3 (points3 _)) by exact (Forall_impl _ (fun p (Fp : Finite3 p) d => finite_NoNaN _ (Fp d)) F));
    destruct (ptree3_ok _ N) as [O I]; cbn [visible3]; (destruct (culled3 prof h _) eqn:EC; [symmetry; apply filter_none; intros q Iq; apply (C112_culling_3d_pf A prof h _ q D); [rewrite Forall_forall in F; now apply F | apply bb3_is_inside_iff; now apply I | exact EC]|]);
    (destruct (taken3 prof h _) eqn:ET; [symmetry; apply filter_all; intros q Iq; apply (C112_culling_3d_pf A prof h _ q D); [rewrite Forall_forall in F; now apply F | apply bb3_is_inside_iff; now apply I | exact ET]|]).
  - reflexivity.
  - cbn [points3] in *. rewrite filter_app. apply Forall_app in F, N. destruct F as [Fa Fb], N as [Na Nb]. destruct (ptree3_ok a Na) as [Oa Ia], (ptree3_ok b Nb) as [Ob Ib]. rewrite IHa, IHb; [reflexivity | assumption | | assumption | ].
    + intros nk c Ink Ic. destruct (ext3 prof h _ nk c D Ink) as (_ & _ & _ & _ & K & _); [| |exact K].
      * exact (corner3_finite prof _ c (tree3_finite b Fb) Ic).
      * apply (bb3_union_r L _ _ Oa Ob). exact (corners3_inside prof _ c Ob Ic).
    + intros nk c Ink Ic. destruct (ext3 prof h _ nk c D Ink) as (_ & _ & _ & _ & K & _); [| |exact K].
      * exact (corner3_finite prof _ c (tree3_finite a Fa) Ic).
      * apply (bb3_union_l L _ _ Oa Ob). exact (corners3_inside prof _ c Oa Ic).
Qed.
