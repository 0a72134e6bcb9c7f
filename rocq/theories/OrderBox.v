(** Proofs of the order-based properties of points, vectors and boxes, generically from [OrdLaws]. *)
From Coq Require Import Bool NArith List Lia.
From Verif Require Import Scalar Types Vector2 Vector3 Point2 Point3 Ray BoundingBox2 BoundingBox3 OrdLaws SpecOrder OrderProofs.
Import ListNotations.

Ltac fold_Le := repeat match goal with
  | H : context [sle ?x ?y = true] |- _ => change (sle x y = true) with (Le x y) in H
  | |- context [sle ?x ?y = true] => change (sle x y = true) with (Le x y)
  end.
Section Gen.
Context {S : Type} {O : ScalarOps S} (L : OrdLaws O).

Lemma Lt_Le_trans x y z : Lt x y -> Le y z -> Lt x z.
Proof.
  rewrite !(Lt_iff L). intros (N1 & N2 & H) H1. destruct (Le_nan L _ _ H1). repeat split; try assumption.
  intros C. apply H. eapply (Le_trans L); eassumption.
Qed.
Lemma Le_Lt_trans x y z : Le x y -> Lt y z -> Lt x z.
Proof.
  rewrite !(Lt_iff L). intros H1 (N1 & N2 & H). destruct (Le_nan L _ _ H1). repeat split; try assumption.
  intros C. apply H. eapply (Le_trans L); eassumption.
Qed.
Lemma max_keeps_zero x y : Le szero x -> Le szero (s_max x y).
Proof.
  intros H. destruct (Le_nan L _ _ H) as [_ N]. destruct (snan y) eqn:E.
  - unfold s_max. now rewrite (ol_max_nan2 _ L).
  - eapply (Le_trans L); [exact H | now apply (max_ub1 L)].
Qed.
End Gen.

Ltac dimlaw L :=
  repeat match goal with H : _ /\ _ |- _ => destruct H end;
  let d := fresh "d" in intros d;
  repeat match goal with
  | |- context [if (sle ?x ?y && sle ?x ?z)%bool then _ else _] => destruct (sle x y) eqn:?, (sle x z) eqn:?; cbn [andb]
  | |- context [if (slt ?y ?x && slt ?z ?x)%bool then _ else _] => destruct (slt y x) eqn:?, (slt z x) eqn:?; cbn [andb]
  | |- context [if sle ?x ?y then _ else _] => destruct (sle x y) eqn:?
  | |- context [if slt ?x ?y then _ else _] => destruct (slt x y) eqn:?
  end;
  destruct d; cbn [dim2_index dim3_index vcoord2 vcoord3 coord2 coord3];
  repeat match goal with
  | H : sle ?x ?y = false |- _ => 
     lazymatch goal with _ : Lt y x |- _ => fail | _ => assert (Lt y x) by (apply (Lt_iff L); unfold Le; repeat split; try assumption; congruence) end
  | H : slt ?x ?y = false |- _ => apply (not_Lt_Le L) in H; [|assumption|assumption]
  | H : sle ?x ?y = true |- _ => change (Le x y) in H
  | H : slt ?x ?y = true |- _ => change (Lt x y) in H
  end;
  repeat match goal with
  | H : Lt ?x ?y |- _ => lazymatch goal with _ : Le x y |- _ => fail | _ => pose proof (Lt_Le L _ _ H) end
  end;
  (split; [ole L 3 | intros; try lia; try assumption; try (eapply (Lt_Le_trans L); eassumption); try (eapply (Le_Lt_trans L); eassumption) ]).

Section Gen2.
Context {S : Type} {O : ScalarOps S} (L : OrdLaws O).
(** ** 2D *)
Lemma p2_min_glb a b : NoNaN2 a -> NoNaN2 b ->
  PLe2 (p2_min a b) a /\ PLe2 (p2_min a b) b /\ (forall c, PLe2 c a -> PLe2 c b -> PLe2 c (p2_min a b)).
Proof. intros H1 H2. split; [|split]; [| |intros c H3 H4]; osolve L. Qed.
Lemma p2_max_lub a b : NoNaN2 a -> NoNaN2 b ->
  PLe2 a (p2_max a b) /\ PLe2 b (p2_max a b) /\ (forall c, PLe2 a c -> PLe2 b c -> PLe2 (p2_max a b) c).
Proof. intros H1 H2. split; [|split]; [| |intros c H3 H4]; osolve L. Qed.
Lemma p2_min_algebra a b c : NoNaN2 a -> NoNaN2 b -> NoNaN2 c ->
  PEq2 (p2_min a b) (p2_min b a) /\ PEq2 (p2_min (p2_min a b) c) (p2_min a (p2_min b c)) /\ PEq2 (p2_min a a) a.
Proof. intros H1 H2 H3. split; [|split]; osolve L. Qed.
Lemma p2_max_algebra a b c : NoNaN2 a -> NoNaN2 b -> NoNaN2 c ->
  PEq2 (p2_max a b) (p2_max b a) /\ PEq2 (p2_max (p2_max a b) c) (p2_max a (p2_max b c)) /\ PEq2 (p2_max a a) a.
Proof. intros H1 H2 H3. split; [|split]; osolve L. Qed.
Lemma v2_min_glb a b : VNoNaN2 a -> VNoNaN2 b ->
  VLe2 (v2_min a b) a /\ VLe2 (v2_min a b) b /\ (forall c, VLe2 c a -> VLe2 c b -> VLe2 c (v2_min a b)).
Proof. intros H1 H2. split; [|split]; [| |intros c H3 H4]; osolve L. Qed.
Lemma v2_max_lub a b : VNoNaN2 a -> VNoNaN2 b ->
  VLe2 a (v2_max a b) /\ VLe2 b (v2_max a b) /\ (forall c, VLe2 a c -> VLe2 b c -> VLe2 (v2_max a b) c).
Proof. intros H1 H2. split; [|split]; [| |intros c H3 H4]; osolve L. Qed.
Lemma v2_min_algebra a b c : VNoNaN2 a -> VNoNaN2 b -> VNoNaN2 c ->
  VEq2 (v2_min a b) (v2_min b a) /\ VEq2 (v2_min (v2_min a b) c) (v2_min a (v2_min b c)) /\ VEq2 (v2_min a a) a.
Proof. intros H1 H2 H3. split; [|split]; osolve L. Qed.
Lemma v2_max_algebra a b c : VNoNaN2 a -> VNoNaN2 b -> VNoNaN2 c ->
  VEq2 (v2_max a b) (v2_max b a) /\ VEq2 (v2_max (v2_max a b) c) (v2_max a (v2_max b c)) /\ VEq2 (v2_max a a) a.
Proof. intros H1 H2 H3. split; [|split]; osolve L. Qed.

(** boxes as sets *)
Lemma In2_min b : Ordered2 b -> In2 (bb2_min b) b.
Proof. intros H. osolve L. Qed.
Lemma In2_max b : Ordered2 b -> In2 (bb2_max b) b.
Proof. intros H. osolve L. Qed.
Lemma In2_Ordered p b : In2 p b -> Ordered2 b.
Proof. intros H. osolve L. Qed.
Lemma Ordered2_NoNaN b : Ordered2 b -> NoNaN2 (bb2_min b) /\ NoNaN2 (bb2_max b).
Proof. intros H. osolve L. Qed.
Lemma Incl2_iff a b : Ordered2 a -> (Incl2 a b <-> PLe2 (bb2_min b) (bb2_min a) /\ PLe2 (bb2_max a) (bb2_max b)).
Proof.
  intros H; split.
  - intros I. pose proof (I _ (In2_min a H)). pose proof (I _ (In2_max a H)). osolve L.
  - intros I p Hp. osolve L.
Qed.
Lemma BEq2_iff a b : Ordered2 a -> Ordered2 b -> (BEq2 a b <-> (forall p, In2 p a <-> In2 p b)).
Proof.
  intros Ha Hb. split.
  - intros E p. unfold BEq2, PEq2 in E. setoid_rewrite (Eqs_iff L) in E. split; intros Hp; osolve L.
  - intros E.
    pose proof (proj1 (Incl2_iff a b Ha) (fun p => proj1 (E p))).
    pose proof (proj1 (Incl2_iff b a Hb) (fun p => proj2 (E p))).
    osolve L.
Qed.

(** *** C03 *)
Lemma bb2_new_ordered p1 p2 : NoNaN2 p1 -> NoNaN2 p2 -> Ordered2 (bb2_new p1 p2).
Proof. intros H1 H2. osolve L. Qed.
Lemma bb2_new_in p1 p2 : NoNaN2 p1 -> NoNaN2 p2 -> In2 p1 (bb2_new p1 p2) /\ In2 p2 (bb2_new p1 p2).
Proof. intros H1 H2. osolve L. Qed.
Lemma bb2_new_least p1 p2 c : NoNaN2 p1 -> NoNaN2 p2 -> In2 p1 c -> In2 p2 c -> Incl2 (bb2_new p1 p2) c.
Proof. intros H1 H2 H3 H4. apply Incl2_iff; [now apply bb2_new_ordered|]. osolve L. Qed.
Lemma bb2_new_comm p1 p2 : NoNaN2 p1 -> NoNaN2 p2 -> BEq2 (bb2_new p1 p2) (bb2_new p2 p1).
Proof. intros H1 H2. osolve L. Qed.
Lemma bb2_new_smallest p1 p2 : NoNaN2 p1 -> NoNaN2 p2 ->
  Ordered2 (bb2_new p1 p2) /\ In2 p1 (bb2_new p1 p2) /\ In2 p2 (bb2_new p1 p2) /\
  (forall c, In2 p1 c -> In2 p2 c -> Incl2 (bb2_new p1 p2) c) /\
  BEq2 (bb2_new p1 p2) (bb2_new p2 p1).
Proof.
  intros H1 H2. destruct (bb2_new_in p1 p2 H1 H2).
  auto 10 using bb2_new_ordered, bb2_new_least, bb2_new_comm.
Qed.

(** *** C04 *)
Lemma bb2_is_inside_iff b p : bb2_is_inside b p = true <-> In2 p b.
Proof. unfold bb2_is_inside. oexpand. rewrite !andb_true_iff. unfold Le. tauto. Qed.
Lemma bb2_is_inside_nan b p d : ~ NoNaN (coord2 p d) -> bb2_is_inside b p = false.
Proof.
  intros H. apply not_true_is_false. rewrite bb2_is_inside_iff. intros [I _]. apply H.
  apply (Le_nan L _ _ (I d)).
Qed.
Lemma bb2_empty_none p : bb2_is_inside bb2_empty p = false.
Proof.
  apply not_true_is_false. rewrite bb2_is_inside_iff. intros I.
  apply (inf_not_Le_ninf L). osolve L.
Qed.
Lemma bb2_infinite_all p : NoNaN2 p -> bb2_is_inside bb2_infinite p = true.
Proof. intros H. rewrite bb2_is_inside_iff. osolve L. Qed.

(** *** C05, C06 *)
Lemma bb2_union_ordered a b : Ordered2 a -> Ordered2 b -> Ordered2 (bb2_union a b).
Proof. intros H1 H2. destruct (Ordered2_NoNaN a H1), (Ordered2_NoNaN b H2). apply bb2_new_ordered; osolve L. Qed.
Lemma bb2_union_l a b : Ordered2 a -> Ordered2 b -> Incl2 a (bb2_union a b).
Proof. intros H1 H2 p H3. osolve L. Qed.
Lemma bb2_union_r a b : Ordered2 a -> Ordered2 b -> Incl2 b (bb2_union a b).
Proof. intros H1 H2 p H3. osolve L. Qed.
Lemma bb2_union_least a b c : Ordered2 a -> Ordered2 b -> Incl2 a c -> Incl2 b c -> Incl2 (bb2_union a b) c.
Proof.
  intros H1 H2 I1 I2. apply Incl2_iff; [now apply bb2_union_ordered|].
  apply (Incl2_iff a c H1) in I1. apply (Incl2_iff b c H2) in I2. osolve L.
Qed.
Lemma Incl2_antisym a b : Ordered2 a -> Ordered2 b -> Incl2 a b -> Incl2 b a -> BEq2 a b.
Proof. intros H1 H2 I1 I2. apply BEq2_iff; auto. intros p; split; [apply I1 | apply I2]. Qed.
Lemma Incl2_trans a b c : Incl2 a b -> Incl2 b c -> Incl2 a c.
Proof. intros I1 I2 p H. auto. Qed.
Lemma bb2_infinite_ordered : Ordered2 bb2_infinite.
Proof. osolve L. Qed.
Lemma Incl2_infinite b : Incl2 b bb2_infinite.
Proof. intros p H. osolve L. Qed.
Lemma bb2_union_comm a b : Ordered2 a -> Ordered2 b -> BEq2 (bb2_union a b) (bb2_union b a).
Proof.
  intros H1 H2. apply Incl2_antisym; auto using bb2_union_ordered;
  apply bb2_union_least; auto using bb2_union_l, bb2_union_r.
Qed.
Lemma bb2_union_assoc a b c : Ordered2 a -> Ordered2 b -> Ordered2 c ->
  BEq2 (bb2_union (bb2_union a b) c) (bb2_union a (bb2_union b c)).
Proof.
  intros H1 H2 H3.
  pose proof (bb2_union_ordered a b H1 H2) as Hab. pose proof (bb2_union_ordered b c H2 H3) as Hbc.
  pose proof (bb2_union_l a b H1 H2). pose proof (bb2_union_r a b H1 H2).
  pose proof (bb2_union_l b c H2 H3). pose proof (bb2_union_r b c H2 H3).
  pose proof (bb2_union_l _ c Hab H3). pose proof (bb2_union_r _ c Hab H3).
  pose proof (bb2_union_l a _ H1 Hbc). pose proof (bb2_union_r a _ H1 Hbc).
  apply Incl2_antisym; auto using bb2_union_ordered;
  repeat apply bb2_union_least; try assumption; eauto 3 using Incl2_trans.
Qed.
Lemma bb2_union_idem a : Ordered2 a -> BEq2 (bb2_union a a) a.
Proof.
  intros H1. apply Incl2_antisym; auto using bb2_union_ordered, bb2_union_l.
  apply bb2_union_least; auto; intros p; auto.
Qed.
Lemma bb2_union_infinite a : Ordered2 a -> BEq2 (bb2_union a bb2_infinite) bb2_infinite.
Proof.
  intros H1. apply Incl2_antisym; auto using bb2_union_ordered, bb2_infinite_ordered, Incl2_infinite.
  apply bb2_union_r; auto using bb2_infinite_ordered.
Qed.
Lemma bb2_union_empty_l b : Ordered2 b -> BEq2 (bb2_union bb2_empty b) b.
Proof. intros H. osolve L. Qed.
Lemma bb2_union_empty_r b : Ordered2 b -> BEq2 (bb2_union b bb2_empty) b.
Proof. intros H. osolve L. Qed.
Lemma bb2_union_smallest a b : Ordered2 a -> Ordered2 b ->
  (forall p, In2 p a \/ In2 p b -> In2 p (bb2_union a b)) /\
  (forall c, Incl2 a c -> Incl2 b c -> Incl2 (bb2_union a b) c) /\
  Ordered2 (bb2_union a b).
Proof.
  intros H1 H2. split; [|split].
  - intros p [H|H]; [now apply (bb2_union_l a b) | now apply (bb2_union_r a b)].
  - intros c. now apply bb2_union_least.
  - now apply bb2_union_ordered.
Qed.
Lemma bb2_union_algebra a b c : Ordered2 a -> Ordered2 b -> Ordered2 c ->
  BEq2 (bb2_union a b) (bb2_union b a) /\
  BEq2 (bb2_union (bb2_union a b) c) (bb2_union a (bb2_union b c)) /\
  BEq2 (bb2_union a a) a /\
  BEq2 (bb2_union a bb2_infinite) bb2_infinite /\
  BEq2 (bb2_union bb2_empty a) a /\ BEq2 (bb2_union a bb2_empty) a.
Proof.
  auto 10 using bb2_union_comm, bb2_union_assoc, bb2_union_idem, bb2_union_infinite, bb2_union_empty_l, bb2_union_empty_r.
Qed.

(** *** C07 refuted *)
Lemma bb2_union_empty_empty p : NoNaN2 p -> In2 p (bb2_union bb2_empty bb2_empty).
Proof. intros H. osolve L. Qed.

(** *** C08 *)
Lemma bb2_union_point_ordered b p : Ordered2 b -> NoNaN2 p -> Ordered2 (bb2_union_point b p).
Proof. intros H1 H2. destruct (Ordered2_NoNaN b H1). apply bb2_new_ordered; osolve L. Qed.
Lemma bb2_union_point_l b p : Ordered2 b -> NoNaN2 p -> Incl2 b (bb2_union_point b p).
Proof. intros H1 H2 q H3. osolve L. Qed.
Lemma bb2_union_point_in b p : Ordered2 b -> NoNaN2 p -> In2 p (bb2_union_point b p).
Proof. intros H1 H2. osolve L. Qed.
Lemma bb2_union_point_least b p c : Ordered2 b -> NoNaN2 p -> Incl2 b c -> In2 p c -> Incl2 (bb2_union_point b p) c.
Proof.
  intros H1 H2 I1 I2. apply Incl2_iff; [now apply bb2_union_point_ordered|].
  apply (Incl2_iff b c H1) in I1. osolve L.
Qed.
Lemma bb2_union_point_touch b p d : Ordered2 b -> NoNaN2 p ->
  (Eqs (coord2 (bb2_min (bb2_union_point b p)) d) (coord2 (bb2_min b) d) \/
   Eqs (coord2 (bb2_min (bb2_union_point b p)) d) (coord2 p d)) /\
  (Eqs (coord2 (bb2_max (bb2_union_point b p)) d) (coord2 (bb2_max b) d) \/
   Eqs (coord2 (bb2_max (bb2_union_point b p)) d) (coord2 p d)).
Proof.
  intros H1 H2. specialize (H1 d). specialize (H2 d). unfold bb2_union_point, bb2_new, p2_min, p2_max, p2_new.
  destruct d; cbn [coord2 bb2_min bb2_max p2x p2y] in *;
  split; onans L; ocases L; onans L; solve [left; ole L 3 | right; ole L 3].
Qed.
Lemma bb2_first p : NoNaN2 p -> BEq2 (bb2_union_point bb2_empty p) (mkBB2 p p) /\ Ordered2 (bb2_union_point bb2_empty p).
Proof. intros H. osolve L. Qed.

Definition tight2 (l : list (Point2 S)) (b : BoundingBox2 S) : Prop :=
  (forall p, In p l -> In2 p b) /\
  (forall c, (forall p, In p l -> In2 p c) -> Incl2 b c) /\
  (forall d, exists p, In p l /\ Eqs (coord2 (bb2_min b) d) (coord2 p d)) /\
  (forall d, exists p, In p l /\ Eqs (coord2 (bb2_max b) d) (coord2 p d)).

Lemma Eqs2_trans x y z : Eqs x y -> Eqs y z -> Eqs x z.
Proof. rewrite !(Eqs_iff L). intros [? ?] [? ?]. split; eapply (Le_trans L); eassumption. Qed.

Lemma bb2_accumulate_from l : (forall p, In p l -> NoNaN2 p) ->
  forall (l0 : list (Point2 S)) b, Ordered2 b -> tight2 l0 b ->
  Ordered2 (fold_left bb2_union_point l b) /\ tight2 (l0 ++ l) (fold_left bb2_union_point l b).
Proof.
  induction l as [|p l IH]; intros Hl l0 b Hb T; cbn [fold_left].
  - rewrite app_nil_r. auto.
  - assert (Hp : NoNaN2 p) by (apply Hl; now left).
    replace (l0 ++ p :: l) with ((l0 ++ [p]) ++ l) by (rewrite <- app_assoc; reflexivity).
    apply IH.
    + intros q Hq. apply Hl. now right.
    + now apply bb2_union_point_ordered.
    + destruct T as (T1 & T2 & T3 & T4). split; [|split; [|split]].
      * intros q Hq. apply in_app_iff in Hq. destruct Hq as [Hq|[<-|[]]].
        -- apply (bb2_union_point_l b p Hb Hp). auto.
        -- now apply bb2_union_point_in.
      * intros c Hc. apply bb2_union_point_least; auto.
        -- apply T2. intros q Hq. apply Hc. apply in_app_iff. auto.
        -- apply Hc. apply in_app_iff. right. now left.
      * intros d. destruct (bb2_union_point_touch b p d Hb Hp) as [[E|E] _].
        -- destruct (T3 d) as (q & Hq & E'). exists q. split; [apply in_app_iff; auto | eapply Eqs2_trans; eassumption].
        -- exists p. split; [apply in_app_iff; right; now left | assumption].
      * intros d. destruct (bb2_union_point_touch b p d Hb Hp) as [_ [E|E]].
        -- destruct (T4 d) as (q & Hq & E'). exists q. split; [apply in_app_iff; auto | eapply Eqs2_trans; eassumption].
        -- exists p. split; [apply in_app_iff; right; now left | assumption].
Qed.
Lemma bb2_accumulate l : l <> [] -> (forall p, In p l -> NoNaN2 p) ->
  Ordered2 (fold_left bb2_union_point l bb2_empty) /\ tight2 l (fold_left bb2_union_point l bb2_empty).
Proof.
  destruct l as [|p l]; [congruence|]. intros _ Hl. cbn [fold_left].
  assert (Hp : NoNaN2 p) by (apply Hl; now left).
  destruct (bb2_first p Hp) as [E Ho].
  apply (bb2_accumulate_from l) with (l0 := [p]).
  - intros q Hq. apply Hl. now right.
  - assumption.
  - assert (Hop : Ordered2 (mkBB2 p p)) by (intros d; apply (Le_refl L); apply Hp).
    pose proof (proj1 (BEq2_iff _ _ Ho Hop) E) as E'.
    split; [|split; [|split]].
    + intros q [<-|[]]. apply E'. split; intros d; apply (Le_refl L); apply Hp.
    + intros c Hc q Hq. apply E' in Hq. specialize (Hc p (or_introl eq_refl)).
      destruct Hc as [C1 C2], Hq as [Q1 Q2]. cbn [bb2_min bb2_max] in *.
      split; intros d; eapply (Le_trans L); eauto.
    + intros d. exists p. split; [now left | apply E].
    + intros d. exists p. split; [now left | apply E].
Qed.
Lemma bb2_accumulate_perm l l' : l <> [] -> (forall p, In p l -> NoNaN2 p) -> (forall p, In p l <-> In p l') ->
  BEq2 (fold_left bb2_union_point l bb2_empty) (fold_left bb2_union_point l' bb2_empty).
Proof.
  intros Hne Hl Hp.
  assert (Hne' : l' <> []).
  { destruct l as [|p l]; [congruence|]. intros ->. apply (Hp p). now left. }
  assert (Hl' : forall p, In p l' -> NoNaN2 p) by (intros p Hi; apply Hl, Hp, Hi).
  destruct (bb2_accumulate l Hne Hl) as (O1 & A1 & B1 & _).
  destruct (bb2_accumulate l' Hne' Hl') as (O2 & A2 & B2 & _).
  apply Incl2_antisym; auto.
  - apply B1. intros p Hi. apply A2, Hp, Hi.
  - apply B2. intros p Hi. apply A1, Hp, Hi.
Qed.

(** *** C09, C10, C11 *)
Lemma bb2_overlaps_sym a b : bb2_overlaps a b = bb2_overlaps b a.
Proof.
  unfold bb2_overlaps. apply eq_true_iff_eq. rewrite !andb_true_iff. tauto.
Qed.
Lemma bb2_overlaps_iff a b : Ordered2 a -> Ordered2 b ->
  (bb2_overlaps a b = true <-> exists p, In2 p a /\ In2 p b).
Proof.
  intros H1 H2. split.
  - intros H. exists (p2_max (bb2_min a) (bb2_min b)).
    unfold bb2_overlaps in H. rewrite !andb_true_iff in H. fold_Le. osolve L.
  - intros (p & I1 & I2). unfold bb2_overlaps. rewrite !andb_true_iff. fold_Le. osolve L.
Qed.
Lemma bb2_intersect_none a b : Ordered2 a -> Ordered2 b ->
  (bb2_intersect a b = None <-> ~ exists p, In2 p a /\ In2 p b).
Proof.
  intros H1 H2. rewrite <- (bb2_overlaps_iff a b H1 H2). unfold bb2_intersect.
  destruct (bb2_overlaps a b); split; intros; try discriminate; try reflexivity; exfalso; auto.
Qed.
Lemma bb2_intersect_some a b c : Ordered2 a -> Ordered2 b -> bb2_intersect a b = Some c ->
  Ordered2 c /\ (forall p, In2 p c <-> In2 p a /\ In2 p b).
Proof.
  intros H1 H2. unfold bb2_intersect. destruct (bb2_overlaps a b) eqn:E; [|discriminate].
  intros [= <-]. unfold bb2_overlaps in E. rewrite !andb_true_iff in E. fold_Le.
  split; [|intros p; split].
  - osolve L.
  - intros I. destruct (Ordered2_NoNaN _ (In2_Ordered _ _ I)) as [N1 N2].
    assert (In2 p (mkBB2 (p2_max (bb2_min a) (bb2_min b)) (p2_min (bb2_max a) (bb2_max b)))) as I'.
    { clear N1 N2. revert I.
      enough (BEq2 (bb2_new (p2_max (bb2_min a) (bb2_min b)) (p2_min (bb2_max a) (bb2_max b)))
                   (mkBB2 (p2_max (bb2_min a) (bb2_min b)) (p2_min (bb2_max a) (bb2_max b)))) as Q.
      { intros I. refine (proj1 (proj1 (BEq2_iff _ _ _ _) Q p) I); osolve L. }
      osolve L. }
    clear I N1 N2. destruct (Ordered2_NoNaN a H1) as [? ?], (Ordered2_NoNaN b H2) as [? ?].
    oexpand. rewrite !(max_le_iff L), !(le_min_iff L) in I' by tauto. tauto.
  - intros [I1 I2]. osolve L.
Qed.
Lemma bb2_intersect_infinite_empty :
  exists c, bb2_intersect bb2_infinite bb2_empty = Some c /\ forall p, NoNaN2 p -> In2 p c.
Proof.
  pose proof (inf_NoNaN L) as N1. pose proof (ninf_NoNaN L) as N2.
  unfold bb2_intersect.
  replace (bb2_overlaps bb2_infinite bb2_empty) with true.
  - eexists; split; [reflexivity|]. intros p H. unfold bb2_infinite, bb2_empty. osolve L.
  - symmetry. unfold bb2_overlaps. rewrite !andb_true_iff. fold_Le. cbn [bb2_min bb2_max bb2_infinite bb2_empty p2_new p2x p2y].
    osplit; ole L 2.
Qed.
(* intersection with the empty box is None as soon as some face of b is not at the matching infinity *)
Lemma bb2_intersect_empty_none b : (exists d, ~ Le sinf (coord2 (bb2_max b) d) \/ ~ Le (coord2 (bb2_min b) d) sninf) ->
  bb2_intersect b bb2_empty = None /\ bb2_intersect bb2_empty b = None.
Proof.
  intros (d & H).
  assert (E : bb2_overlaps b bb2_empty = false).
  { apply not_true_is_false. unfold bb2_overlaps. rewrite !andb_true_iff. unfold Le in H.
    cbn [bb2_min bb2_max bb2_empty p2_new p2x p2y]. destruct d; cbn [coord2] in H; tauto. }
  unfold bb2_intersect. rewrite (bb2_overlaps_sym bb2_empty b), E. auto.
Qed.

(** *** C32 and the dimension part of C14 *)
Lemma bb2_min_dimension_law b : (forall d, NoNaN (bb2_extent b d)) -> forall d,
  Le (bb2_extent b (bb2_min_dimension b)) (bb2_extent b d) /\
  (dim2_index d < dim2_index (bb2_min_dimension b) -> Lt (bb2_extent b (bb2_min_dimension b)) (bb2_extent b d))%nat.
Proof.
  intros H. pose proof (proj1 (forall_d2 _) H) as H'. clear H. unfold bb2_min_dimension, bb2_diagonal.
  unfold bb2_extent, bb2_width, bb2_height,  p2_sub, v2_new in *. cbn [v2x v2y] in *. dimlaw L.
Qed.
Lemma bb2_max_dimension_law b : (forall d, NoNaN (bb2_extent b d)) -> forall d,
  Le (bb2_extent b d) (bb2_extent b (bb2_max_dimension b)) /\
  (dim2_index (bb2_max_dimension b) < dim2_index d -> Lt (bb2_extent b d) (bb2_extent b (bb2_max_dimension b)))%nat.
Proof.
  intros H. pose proof (proj1 (forall_d2 _) H) as H'. clear H. unfold bb2_max_dimension, bb2_diagonal.
  unfold bb2_extent, bb2_width, bb2_height,  p2_sub, v2_new in *. cbn [v2x v2y] in *. dimlaw L.
Qed.
Lemma p2_min_dimension_law p : NoNaN2 p -> forall d,
  Le (sabs (coord2 p (p2_min_dimension p))) (sabs (coord2 p d)) /\
  (dim2_index d < dim2_index (p2_min_dimension p) -> Lt (sabs (coord2 p (p2_min_dimension p))) (sabs (coord2 p d)))%nat.
Proof.
  intros H. assert (H' : forall d, NoNaN (sabs (coord2 p d))) by (intros d; apply (ol_abs_nan _ L), H).
  apply forall_d2 in H'. clear H. unfold p2_min_dimension, p2_abs, p2_new. cbn [p2x p2y coord2] in *. dimlaw L.
Qed.
Lemma p2_max_dimension_law p : NoNaN2 p -> forall d,
  Le (sabs (coord2 p d)) (sabs (coord2 p (p2_max_dimension p))) /\
  (dim2_index (p2_max_dimension p) < dim2_index d -> Lt (sabs (coord2 p d)) (sabs (coord2 p (p2_max_dimension p))))%nat.
Proof.
  intros H. assert (H' : forall d, NoNaN (sabs (coord2 p d))) by (intros d; apply (ol_abs_nan _ L), H).
  apply forall_d2 in H'. clear H. unfold p2_max_dimension, p2_abs, p2_new. cbn [p2x p2y coord2] in *. dimlaw L.
Qed.
Lemma v2_min_dimension_law p : VNoNaN2 p -> forall d,
  Le (sabs (vcoord2 p (v2_min_dimension p))) (sabs (vcoord2 p d)) /\
  (dim2_index d < dim2_index (v2_min_dimension p) -> Lt (sabs (vcoord2 p (v2_min_dimension p))) (sabs (vcoord2 p d)))%nat.
Proof.
  intros H. assert (H' : forall d, NoNaN (sabs (vcoord2 p d))) by (intros d; apply (ol_abs_nan _ L), H).
  apply forall_d2 in H'. clear H. unfold v2_min_dimension, v2_abs, v2_new. cbn [v2x v2y vcoord2] in *. dimlaw L.
Qed.
Lemma v2_max_dimension_law p : VNoNaN2 p -> forall d,
  Le (sabs (vcoord2 p d)) (sabs (vcoord2 p (v2_max_dimension p))) /\
  (dim2_index (v2_max_dimension p) < dim2_index d -> Lt (sabs (vcoord2 p d)) (sabs (vcoord2 p (v2_max_dimension p))))%nat.
Proof.
  intros H. assert (H' : forall d, NoNaN (sabs (vcoord2 p d))) by (intros d; apply (ol_abs_nan _ L), H).
  apply forall_d2 in H'. clear H. unfold v2_max_dimension, v2_abs, v2_new. cbn [v2x v2y vcoord2] in *. dimlaw L.
Qed.

(** *** C18 *)
Lemma bb2_ray_wf b r s e : bb2_intersect_ray b r = Some (s, e) ->
  NoNaN s /\ NoNaN e /\ Le szero s /\ Le s e.
Proof.
  unfold bb2_intersect_ray. cbv zeta.
  repeat match goal with |- (if ?c then None else _) = _ -> _ => destruct c; [discriminate|] end.
  match goal with |- (if ?c then _ else _) = _ -> _ => destruct c eqn:E; [|discriminate] end.
  intros [= <- <-]. fold_Le. destruct (Le_nan L _ _ E).
  split; [assumption|split; [assumption|split; [|assumption]]].
  repeat apply (max_keeps_zero L). apply (Le_refl L). apply (ol_zero_nan _ L).
Qed.

(** ** 3D *)
Lemma p3_min_glb a b : NoNaN3 a -> NoNaN3 b ->
  PLe3 (p3_min a b) a /\ PLe3 (p3_min a b) b /\ (forall c, PLe3 c a -> PLe3 c b -> PLe3 c (p3_min a b)).
Proof. intros H1 H2. split; [|split]; [| |intros c H3 H4]; osolve L. Qed.
Lemma p3_max_lub a b : NoNaN3 a -> NoNaN3 b ->
  PLe3 a (p3_max a b) /\ PLe3 b (p3_max a b) /\ (forall c, PLe3 a c -> PLe3 b c -> PLe3 (p3_max a b) c).
Proof. intros H1 H2. split; [|split]; [| |intros c H3 H4]; osolve L. Qed.
Lemma p3_min_algebra a b c : NoNaN3 a -> NoNaN3 b -> NoNaN3 c ->
  PEq3 (p3_min a b) (p3_min b a) /\ PEq3 (p3_min (p3_min a b) c) (p3_min a (p3_min b c)) /\ PEq3 (p3_min a a) a.
Proof. intros H1 H2 H3. split; [|split]; osolve L. Qed.
Lemma p3_max_algebra a b c : NoNaN3 a -> NoNaN3 b -> NoNaN3 c ->
  PEq3 (p3_max a b) (p3_max b a) /\ PEq3 (p3_max (p3_max a b) c) (p3_max a (p3_max b c)) /\ PEq3 (p3_max a a) a.
Proof. intros H1 H2 H3. split; [|split]; osolve L. Qed.
Lemma v3_min_glb a b : VNoNaN3 a -> VNoNaN3 b ->
  VLe3 (v3_min a b) a /\ VLe3 (v3_min a b) b /\ (forall c, VLe3 c a -> VLe3 c b -> VLe3 c (v3_min a b)).
Proof. intros H1 H2. split; [|split]; [| |intros c H3 H4]; osolve L. Qed.
Lemma v3_max_lub a b : VNoNaN3 a -> VNoNaN3 b ->
  VLe3 a (v3_max a b) /\ VLe3 b (v3_max a b) /\ (forall c, VLe3 a c -> VLe3 b c -> VLe3 (v3_max a b) c).
Proof. intros H1 H2. split; [|split]; [| |intros c H3 H4]; osolve L. Qed.
Lemma v3_min_algebra a b c : VNoNaN3 a -> VNoNaN3 b -> VNoNaN3 c ->
  VEq3 (v3_min a b) (v3_min b a) /\ VEq3 (v3_min (v3_min a b) c) (v3_min a (v3_min b c)) /\ VEq3 (v3_min a a) a.
Proof. intros H1 H2 H3. split; [|split]; osolve L. Qed.
Lemma v3_max_algebra a b c : VNoNaN3 a -> VNoNaN3 b -> VNoNaN3 c ->
  VEq3 (v3_max a b) (v3_max b a) /\ VEq3 (v3_max (v3_max a b) c) (v3_max a (v3_max b c)) /\ VEq3 (v3_max a a) a.
Proof. intros H1 H2 H3. split; [|split]; osolve L. Qed.

(** boxes as sets *)
Lemma In3_min b : Ordered3 b -> In3 (bb3_min b) b.
Proof. intros H. osolve L. Qed.
Lemma In3_max b : Ordered3 b -> In3 (bb3_max b) b.
Proof. intros H. osolve L. Qed.
Lemma In3_Ordered p b : In3 p b -> Ordered3 b.
Proof. intros H. osolve L. Qed.
Lemma Ordered3_NoNaN b : Ordered3 b -> NoNaN3 (bb3_min b) /\ NoNaN3 (bb3_max b).
Proof. intros H. osolve L. Qed.
Lemma Incl3_iff a b : Ordered3 a -> (Incl3 a b <-> PLe3 (bb3_min b) (bb3_min a) /\ PLe3 (bb3_max a) (bb3_max b)).
Proof.
  intros H; split.
  - intros I. pose proof (I _ (In3_min a H)). pose proof (I _ (In3_max a H)). osolve L.
  - intros I p Hp. osolve L.
Qed.
Lemma BEq3_iff a b : Ordered3 a -> Ordered3 b -> (BEq3 a b <-> (forall p, In3 p a <-> In3 p b)).
Proof.
  intros Ha Hb. split.
  - intros E p. unfold BEq3, PEq3 in E. setoid_rewrite (Eqs_iff L) in E. split; intros Hp; osolve L.
  - intros E.
    pose proof (proj1 (Incl3_iff a b Ha) (fun p => proj1 (E p))).
    pose proof (proj1 (Incl3_iff b a Hb) (fun p => proj2 (E p))).
    osolve L.
Qed.

(** *** C03 *)
Lemma bb3_new_ordered p1 p2 : NoNaN3 p1 -> NoNaN3 p2 -> Ordered3 (bb3_new p1 p2).
Proof. intros H1 H2. osolve L. Qed.
Lemma bb3_new_in p1 p2 : NoNaN3 p1 -> NoNaN3 p2 -> In3 p1 (bb3_new p1 p2) /\ In3 p2 (bb3_new p1 p2).
Proof. intros H1 H2. osolve L. Qed.
Lemma bb3_new_least p1 p2 c : NoNaN3 p1 -> NoNaN3 p2 -> In3 p1 c -> In3 p2 c -> Incl3 (bb3_new p1 p2) c.
Proof. intros H1 H2 H3 H4. apply Incl3_iff; [now apply bb3_new_ordered|]. osolve L. Qed.
Lemma bb3_new_comm p1 p2 : NoNaN3 p1 -> NoNaN3 p2 -> BEq3 (bb3_new p1 p2) (bb3_new p2 p1).
Proof. intros H1 H2. osolve L. Qed.
Lemma bb3_new_smallest p1 p2 : NoNaN3 p1 -> NoNaN3 p2 ->
  Ordered3 (bb3_new p1 p2) /\ In3 p1 (bb3_new p1 p2) /\ In3 p2 (bb3_new p1 p2) /\
  (forall c, In3 p1 c -> In3 p2 c -> Incl3 (bb3_new p1 p2) c) /\
  BEq3 (bb3_new p1 p2) (bb3_new p2 p1).
Proof.
  intros H1 H2. destruct (bb3_new_in p1 p2 H1 H2).
  auto 10 using bb3_new_ordered, bb3_new_least, bb3_new_comm.
Qed.

(** *** C04 *)
Lemma bb3_is_inside_iff b p : bb3_is_inside b p = true <-> In3 p b.
Proof. unfold bb3_is_inside. oexpand. rewrite !andb_true_iff. unfold Le. tauto. Qed.
Lemma bb3_is_inside_nan b p d : ~ NoNaN (coord3 p d) -> bb3_is_inside b p = false.
Proof.
  intros H. apply not_true_is_false. rewrite bb3_is_inside_iff. intros [I _]. apply H.
  apply (Le_nan L _ _ (I d)).
Qed.
Lemma bb3_empty_none p : bb3_is_inside bb3_empty p = false.
Proof.
  apply not_true_is_false. rewrite bb3_is_inside_iff. intros I.
  apply (inf_not_Le_ninf L). osolve L.
Qed.
Lemma bb3_infinite_all p : NoNaN3 p -> bb3_is_inside bb3_infinite p = true.
Proof. intros H. rewrite bb3_is_inside_iff. osolve L. Qed.

(** *** C05, C06 *)
Lemma bb3_union_ordered a b : Ordered3 a -> Ordered3 b -> Ordered3 (bb3_union a b).
Proof. intros H1 H2. destruct (Ordered3_NoNaN a H1), (Ordered3_NoNaN b H2). apply bb3_new_ordered; osolve L. Qed.
Lemma bb3_union_l a b : Ordered3 a -> Ordered3 b -> Incl3 a (bb3_union a b).
Proof. intros H1 H2 p H3. osolve L. Qed.
Lemma bb3_union_r a b : Ordered3 a -> Ordered3 b -> Incl3 b (bb3_union a b).
Proof. intros H1 H2 p H3. osolve L. Qed.
Lemma bb3_union_least a b c : Ordered3 a -> Ordered3 b -> Incl3 a c -> Incl3 b c -> Incl3 (bb3_union a b) c.
Proof.
  intros H1 H2 I1 I2. apply Incl3_iff; [now apply bb3_union_ordered|].
  apply (Incl3_iff a c H1) in I1. apply (Incl3_iff b c H2) in I2. osolve L.
Qed.
Lemma Incl3_antisym a b : Ordered3 a -> Ordered3 b -> Incl3 a b -> Incl3 b a -> BEq3 a b.
Proof. intros H1 H2 I1 I2. apply BEq3_iff; auto. intros p; split; [apply I1 | apply I2]. Qed.
Lemma Incl3_trans a b c : Incl3 a b -> Incl3 b c -> Incl3 a c.
Proof. intros I1 I2 p H. auto. Qed.
Lemma bb3_infinite_ordered : Ordered3 bb3_infinite.
Proof. osolve L. Qed.
Lemma Incl3_infinite b : Incl3 b bb3_infinite.
Proof. intros p H. osolve L. Qed.
Lemma bb3_union_comm a b : Ordered3 a -> Ordered3 b -> BEq3 (bb3_union a b) (bb3_union b a).
Proof.
  intros H1 H2. apply Incl3_antisym; auto using bb3_union_ordered;
  apply bb3_union_least; auto using bb3_union_l, bb3_union_r.
Qed.
Lemma bb3_union_assoc a b c : Ordered3 a -> Ordered3 b -> Ordered3 c ->
  BEq3 (bb3_union (bb3_union a b) c) (bb3_union a (bb3_union b c)).
Proof.
  intros H1 H2 H3.
  pose proof (bb3_union_ordered a b H1 H2) as Hab. pose proof (bb3_union_ordered b c H2 H3) as Hbc.
  pose proof (bb3_union_l a b H1 H2). pose proof (bb3_union_r a b H1 H2).
  pose proof (bb3_union_l b c H2 H3). pose proof (bb3_union_r b c H2 H3).
  pose proof (bb3_union_l _ c Hab H3). pose proof (bb3_union_r _ c Hab H3).
  pose proof (bb3_union_l a _ H1 Hbc). pose proof (bb3_union_r a _ H1 Hbc).
  apply Incl3_antisym; auto using bb3_union_ordered;
  repeat apply bb3_union_least; try assumption; eauto 3 using Incl3_trans.
Qed.
Lemma bb3_union_idem a : Ordered3 a -> BEq3 (bb3_union a a) a.
Proof.
  intros H1. apply Incl3_antisym; auto using bb3_union_ordered, bb3_union_l.
  apply bb3_union_least; auto; intros p; auto.
Qed.
Lemma bb3_union_infinite a : Ordered3 a -> BEq3 (bb3_union a bb3_infinite) bb3_infinite.
Proof.
  intros H1. apply Incl3_antisym; auto using bb3_union_ordered, bb3_infinite_ordered, Incl3_infinite.
  apply bb3_union_r; auto using bb3_infinite_ordered.
Qed.
Lemma bb3_union_empty_l b : Ordered3 b -> BEq3 (bb3_union bb3_empty b) b.
Proof. intros H. osolve L. Qed.
Lemma bb3_union_empty_r b : Ordered3 b -> BEq3 (bb3_union b bb3_empty) b.
Proof. intros H. osolve L. Qed.
Lemma bb3_union_smallest a b : Ordered3 a -> Ordered3 b ->
  (forall p, In3 p a \/ In3 p b -> In3 p (bb3_union a b)) /\
  (forall c, Incl3 a c -> Incl3 b c -> Incl3 (bb3_union a b) c) /\
  Ordered3 (bb3_union a b).
Proof.
  intros H1 H2. split; [|split].
  - intros p [H|H]; [now apply (bb3_union_l a b) | now apply (bb3_union_r a b)].
  - intros c. now apply bb3_union_least.
  - now apply bb3_union_ordered.
Qed.
Lemma bb3_union_algebra a b c : Ordered3 a -> Ordered3 b -> Ordered3 c ->
  BEq3 (bb3_union a b) (bb3_union b a) /\
  BEq3 (bb3_union (bb3_union a b) c) (bb3_union a (bb3_union b c)) /\
  BEq3 (bb3_union a a) a /\
  BEq3 (bb3_union a bb3_infinite) bb3_infinite /\
  BEq3 (bb3_union bb3_empty a) a /\ BEq3 (bb3_union a bb3_empty) a.
Proof.
  auto 10 using bb3_union_comm, bb3_union_assoc, bb3_union_idem, bb3_union_infinite, bb3_union_empty_l, bb3_union_empty_r.
Qed.

(** *** C07 refuted *)
Lemma bb3_union_empty_empty p : NoNaN3 p -> In3 p (bb3_union bb3_empty bb3_empty).
Proof. intros H. osolve L. Qed.

(** *** C08 *)
Lemma bb3_union_point_ordered b p : Ordered3 b -> NoNaN3 p -> Ordered3 (bb3_union_point b p).
Proof. intros H1 H2. destruct (Ordered3_NoNaN b H1). apply bb3_new_ordered; osolve L. Qed.
Lemma bb3_union_point_l b p : Ordered3 b -> NoNaN3 p -> Incl3 b (bb3_union_point b p).
Proof. intros H1 H2 q H3. osolve L. Qed.
Lemma bb3_union_point_in b p : Ordered3 b -> NoNaN3 p -> In3 p (bb3_union_point b p).
Proof. intros H1 H2. osolve L. Qed.
Lemma bb3_union_point_least b p c : Ordered3 b -> NoNaN3 p -> Incl3 b c -> In3 p c -> Incl3 (bb3_union_point b p) c.
Proof.
  intros H1 H2 I1 I2. apply Incl3_iff; [now apply bb3_union_point_ordered|].
  apply (Incl3_iff b c H1) in I1. osolve L.
Qed.
Lemma bb3_union_point_touch b p d : Ordered3 b -> NoNaN3 p ->
  (Eqs (coord3 (bb3_min (bb3_union_point b p)) d) (coord3 (bb3_min b) d) \/
   Eqs (coord3 (bb3_min (bb3_union_point b p)) d) (coord3 p d)) /\
  (Eqs (coord3 (bb3_max (bb3_union_point b p)) d) (coord3 (bb3_max b) d) \/
   Eqs (coord3 (bb3_max (bb3_union_point b p)) d) (coord3 p d)).
Proof.
  intros H1 H2. specialize (H1 d). specialize (H2 d). unfold bb3_union_point, bb3_new, p3_min, p3_max, p3_new.
  destruct d; cbn [coord3 bb3_min bb3_max p3x p3y p3z] in *;
  split; onans L; ocases L; onans L; solve [left; ole L 3 | right; ole L 3].
Qed.
Lemma bb3_first p : NoNaN3 p -> BEq3 (bb3_union_point bb3_empty p) (mkBB3 p p) /\ Ordered3 (bb3_union_point bb3_empty p).
Proof. intros H. osolve L. Qed.

Definition tight3 (l : list (Point3 S)) (b : BoundingBox3 S) : Prop :=
  (forall p, In p l -> In3 p b) /\
  (forall c, (forall p, In p l -> In3 p c) -> Incl3 b c) /\
  (forall d, exists p, In p l /\ Eqs (coord3 (bb3_min b) d) (coord3 p d)) /\
  (forall d, exists p, In p l /\ Eqs (coord3 (bb3_max b) d) (coord3 p d)).

Lemma Eqs3_trans x y z : Eqs x y -> Eqs y z -> Eqs x z.
Proof. rewrite !(Eqs_iff L). intros [? ?] [? ?]. split; eapply (Le_trans L); eassumption. Qed.

Lemma bb3_accumulate_from l : (forall p, In p l -> NoNaN3 p) ->
  forall (l0 : list (Point3 S)) b, Ordered3 b -> tight3 l0 b ->
  Ordered3 (fold_left bb3_union_point l b) /\ tight3 (l0 ++ l) (fold_left bb3_union_point l b).
Proof.
  induction l as [|p l IH]; intros Hl l0 b Hb T; cbn [fold_left].
  - rewrite app_nil_r. auto.
  - assert (Hp : NoNaN3 p) by (apply Hl; now left).
    replace (l0 ++ p :: l) with ((l0 ++ [p]) ++ l) by (rewrite <- app_assoc; reflexivity).
    apply IH.
    + intros q Hq. apply Hl. now right.
    + now apply bb3_union_point_ordered.
    + destruct T as (T1 & T2 & T3 & T4). split; [|split; [|split]].
      * intros q Hq. apply in_app_iff in Hq. destruct Hq as [Hq|[<-|[]]].
        -- apply (bb3_union_point_l b p Hb Hp). auto.
        -- now apply bb3_union_point_in.
      * intros c Hc. apply bb3_union_point_least; auto.
        -- apply T2. intros q Hq. apply Hc. apply in_app_iff. auto.
        -- apply Hc. apply in_app_iff. right. now left.
      * intros d. destruct (bb3_union_point_touch b p d Hb Hp) as [[E|E] _].
        -- destruct (T3 d) as (q & Hq & E'). exists q. split; [apply in_app_iff; auto | eapply Eqs3_trans; eassumption].
        -- exists p. split; [apply in_app_iff; right; now left | assumption].
      * intros d. destruct (bb3_union_point_touch b p d Hb Hp) as [_ [E|E]].
        -- destruct (T4 d) as (q & Hq & E'). exists q. split; [apply in_app_iff; auto | eapply Eqs3_trans; eassumption].
        -- exists p. split; [apply in_app_iff; right; now left | assumption].
Qed.
Lemma bb3_accumulate l : l <> [] -> (forall p, In p l -> NoNaN3 p) ->
  Ordered3 (fold_left bb3_union_point l bb3_empty) /\ tight3 l (fold_left bb3_union_point l bb3_empty).
Proof.
  destruct l as [|p l]; [congruence|]. intros _ Hl. cbn [fold_left].
  assert (Hp : NoNaN3 p) by (apply Hl; now left).
  destruct (bb3_first p Hp) as [E Ho].
  apply (bb3_accumulate_from l) with (l0 := [p]).
  - intros q Hq. apply Hl. now right.
  - assumption.
  - assert (Hop : Ordered3 (mkBB3 p p)) by (intros d; apply (Le_refl L); apply Hp).
    pose proof (proj1 (BEq3_iff _ _ Ho Hop) E) as E'.
    split; [|split; [|split]].
    + intros q [<-|[]]. apply E'. split; intros d; apply (Le_refl L); apply Hp.
    + intros c Hc q Hq. apply E' in Hq. specialize (Hc p (or_introl eq_refl)).
      destruct Hc as [C1 C2], Hq as [Q1 Q2]. cbn [bb3_min bb3_max] in *.
      split; intros d; eapply (Le_trans L); eauto.
    + intros d. exists p. split; [now left | apply E].
    + intros d. exists p. split; [now left | apply E].
Qed.
Lemma bb3_accumulate_perm l l' : l <> [] -> (forall p, In p l -> NoNaN3 p) -> (forall p, In p l <-> In p l') ->
  BEq3 (fold_left bb3_union_point l bb3_empty) (fold_left bb3_union_point l' bb3_empty).
Proof.
  intros Hne Hl Hp.
  assert (Hne' : l' <> []).
  { destruct l as [|p l]; [congruence|]. intros ->. apply (Hp p). now left. }
  assert (Hl' : forall p, In p l' -> NoNaN3 p) by (intros p Hi; apply Hl, Hp, Hi).
  destruct (bb3_accumulate l Hne Hl) as (O1 & A1 & B1 & _).
  destruct (bb3_accumulate l' Hne' Hl') as (O2 & A2 & B2 & _).
  apply Incl3_antisym; auto.
  - apply B1. intros p Hi. apply A2, Hp, Hi.
  - apply B2. intros p Hi. apply A1, Hp, Hi.
Qed.

(** *** C09, C10, C11 *)
Lemma bb3_overlaps_sym a b : bb3_overlaps a b = bb3_overlaps b a.
Proof.
  unfold bb3_overlaps. apply eq_true_iff_eq. rewrite !andb_true_iff. tauto.
Qed.
Lemma bb3_overlaps_iff a b : Ordered3 a -> Ordered3 b ->
  (bb3_overlaps a b = true <-> exists p, In3 p a /\ In3 p b).
Proof.
  intros H1 H2. split.
  - intros H. exists (p3_max (bb3_min a) (bb3_min b)).
    unfold bb3_overlaps in H. rewrite !andb_true_iff in H. fold_Le. osolve L.
  - intros (p & I1 & I2). unfold bb3_overlaps. rewrite !andb_true_iff. fold_Le. osolve L.
Qed.
Lemma bb3_intersect_none a b : Ordered3 a -> Ordered3 b ->
  (bb3_intersect a b = None <-> ~ exists p, In3 p a /\ In3 p b).
Proof.
  intros H1 H2. rewrite <- (bb3_overlaps_iff a b H1 H2). unfold bb3_intersect.
  destruct (bb3_overlaps a b); split; intros; try discriminate; try reflexivity; exfalso; auto.
Qed.
Lemma bb3_intersect_some a b c : Ordered3 a -> Ordered3 b -> bb3_intersect a b = Some c ->
  Ordered3 c /\ (forall p, In3 p c <-> In3 p a /\ In3 p b).
Proof.
  intros H1 H2. unfold bb3_intersect. destruct (bb3_overlaps a b) eqn:E; [|discriminate].
  intros [= <-]. unfold bb3_overlaps in E. rewrite !andb_true_iff in E. fold_Le.
  split; [|intros p; split].
  - osolve L.
  - intros I. destruct (Ordered3_NoNaN _ (In3_Ordered _ _ I)) as [N1 N2].
    assert (In3 p (mkBB3 (p3_max (bb3_min a) (bb3_min b)) (p3_min (bb3_max a) (bb3_max b)))) as I'.
    { clear N1 N2. revert I.
      enough (BEq3 (bb3_new (p3_max (bb3_min a) (bb3_min b)) (p3_min (bb3_max a) (bb3_max b)))
                   (mkBB3 (p3_max (bb3_min a) (bb3_min b)) (p3_min (bb3_max a) (bb3_max b)))) as Q.
      { intros I. refine (proj1 (proj1 (BEq3_iff _ _ _ _) Q p) I); osolve L. }
      osolve L. }
    clear I N1 N2. destruct (Ordered3_NoNaN a H1) as [? ?], (Ordered3_NoNaN b H2) as [? ?].
    oexpand. rewrite !(max_le_iff L), !(le_min_iff L) in I' by tauto. tauto.
  - intros [I1 I2]. osolve L.
Qed.
Lemma bb3_intersect_infinite_empty :
  exists c, bb3_intersect bb3_infinite bb3_empty = Some c /\ forall p, NoNaN3 p -> In3 p c.
Proof.
  pose proof (inf_NoNaN L) as N1. pose proof (ninf_NoNaN L) as N2.
  unfold bb3_intersect.
  replace (bb3_overlaps bb3_infinite bb3_empty) with true.
  - eexists; split; [reflexivity|]. intros p H. unfold bb3_infinite, bb3_empty. osolve L.
  - symmetry. unfold bb3_overlaps. rewrite !andb_true_iff. fold_Le. cbn [bb3_min bb3_max bb3_infinite bb3_empty p3_new p3x p3y p3z].
    osplit; ole L 2.
Qed.
(* intersection with the empty box is None as soon as some face of b is not at the matching infinity *)
Lemma bb3_intersect_empty_none b : (exists d, ~ Le sinf (coord3 (bb3_max b) d) \/ ~ Le (coord3 (bb3_min b) d) sninf) ->
  bb3_intersect b bb3_empty = None /\ bb3_intersect bb3_empty b = None.
Proof.
  intros (d & H).
  assert (E : bb3_overlaps b bb3_empty = false).
  { apply not_true_is_false. unfold bb3_overlaps. rewrite !andb_true_iff. unfold Le in H.
    cbn [bb3_min bb3_max bb3_empty p3_new p3x p3y p3z]. destruct d; cbn [coord3] in H; tauto. }
  unfold bb3_intersect. rewrite (bb3_overlaps_sym bb3_empty b), E. auto.
Qed.

(** *** C32 and the dimension part of C14 *)
Lemma bb3_min_dimension_law b : (forall d, NoNaN (bb3_extent b d)) -> forall d,
  Le (bb3_extent b (bb3_min_dimension b)) (bb3_extent b d) /\
  (dim3_index d < dim3_index (bb3_min_dimension b) -> Lt (bb3_extent b (bb3_min_dimension b)) (bb3_extent b d))%nat.
Proof.
  intros H. pose proof (proj1 (forall_d3 _) H) as H'. clear H. unfold bb3_min_dimension, bb3_diagonal.
  unfold bb3_extent, bb3_width, bb3_height, bb3_depth, p3_sub, v3_new in *. cbn [v3x v3y v3z] in *. dimlaw L.
Qed.
Lemma bb3_max_dimension_law b : (forall d, NoNaN (bb3_extent b d)) -> forall d,
  Le (bb3_extent b d) (bb3_extent b (bb3_max_dimension b)) /\
  (dim3_index (bb3_max_dimension b) < dim3_index d -> Lt (bb3_extent b d) (bb3_extent b (bb3_max_dimension b)))%nat.
Proof.
  intros H. pose proof (proj1 (forall_d3 _) H) as H'. clear H. unfold bb3_max_dimension, bb3_diagonal.
  unfold bb3_extent, bb3_width, bb3_height, bb3_depth, p3_sub, v3_new in *. cbn [v3x v3y v3z] in *. dimlaw L.
Qed.
Lemma p3_min_dimension_law p : NoNaN3 p -> forall d,
  Le (sabs (coord3 p (p3_min_dimension p))) (sabs (coord3 p d)) /\
  (dim3_index d < dim3_index (p3_min_dimension p) -> Lt (sabs (coord3 p (p3_min_dimension p))) (sabs (coord3 p d)))%nat.
Proof.
  intros H. assert (H' : forall d, NoNaN (sabs (coord3 p d))) by (intros d; apply (ol_abs_nan _ L), H).
  apply forall_d3 in H'. clear H. unfold p3_min_dimension, p3_abs, p3_new. cbn [p3x p3y p3z coord3] in *. dimlaw L.
Qed.
Lemma p3_max_dimension_law p : NoNaN3 p -> forall d,
  Le (sabs (coord3 p d)) (sabs (coord3 p (p3_max_dimension p))) /\
  (dim3_index (p3_max_dimension p) < dim3_index d -> Lt (sabs (coord3 p d)) (sabs (coord3 p (p3_max_dimension p))))%nat.
Proof.
  intros H. assert (H' : forall d, NoNaN (sabs (coord3 p d))) by (intros d; apply (ol_abs_nan _ L), H).
  apply forall_d3 in H'. clear H. unfold p3_max_dimension, p3_abs, p3_new. cbn [p3x p3y p3z coord3] in *. dimlaw L.
Qed.
Lemma v3_min_dimension_law p : VNoNaN3 p -> forall d,
  Le (sabs (vcoord3 p (v3_min_dimension p))) (sabs (vcoord3 p d)) /\
  (dim3_index d < dim3_index (v3_min_dimension p) -> Lt (sabs (vcoord3 p (v3_min_dimension p))) (sabs (vcoord3 p d)))%nat.
Proof.
  intros H. assert (H' : forall d, NoNaN (sabs (vcoord3 p d))) by (intros d; apply (ol_abs_nan _ L), H).
  apply forall_d3 in H'. clear H. unfold v3_min_dimension, v3_abs, v3_new. cbn [v3x v3y v3z vcoord3] in *. dimlaw L.
Qed.
Lemma v3_max_dimension_law p : VNoNaN3 p -> forall d,
  Le (sabs (vcoord3 p d)) (sabs (vcoord3 p (v3_max_dimension p))) /\
  (dim3_index (v3_max_dimension p) < dim3_index d -> Lt (sabs (vcoord3 p d)) (sabs (vcoord3 p (v3_max_dimension p))))%nat.
Proof.
  intros H. assert (H' : forall d, NoNaN (sabs (vcoord3 p d))) by (intros d; apply (ol_abs_nan _ L), H).
  apply forall_d3 in H'. clear H. unfold v3_max_dimension, v3_abs, v3_new. cbn [v3x v3y v3z vcoord3] in *. dimlaw L.
Qed.

(** *** C18 *)
Lemma bb3_ray_wf b r s e : bb3_intersect_ray b r = Some (s, e) ->
  NoNaN s /\ NoNaN e /\ Le szero s /\ Le s e.
Proof.
  unfold bb3_intersect_ray. cbv zeta.
  repeat match goal with |- (if ?c then None else _) = _ -> _ => destruct c; [discriminate|] end.
  match goal with |- (if ?c then _ else _) = _ -> _ => destruct c eqn:E; [|discriminate] end.
  intros [= <- <-]. fold_Le. destruct (Le_nan L _ _ E).
  split; [assumption|split; [assumption|split; [|assumption]]].
  repeat apply (max_keeps_zero L). apply (Le_refl L). apply (ol_zero_nan _ L).
Qed.
End Gen2.
