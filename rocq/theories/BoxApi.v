(** Proofs: the set-level box properties restated through is_inside alone. *)
From Coq Require Import Bool NArith ZArith List.
From Verif Require Import Scalar Types Point2 Point3 BoundingBox2 BoundingBox3 Float
  XReal OrdLaws Arith SpecOrder SpecHist OrderProofs OrderBox BoxHist PropsOrder PropsBoxHist.
Import ListNotations.
(* every point that a accepts, b accepts *)
Lemma Incl2_api {A : arith} (a b : BoundingBox2 (num A)) : Incl2 a b <-> forall p, bb2_is_inside a p = true -> bb2_is_inside b p = true.
Proof. unfold Incl2. split; intros H p; specialize (H p); rewrite !bb2_is_inside_iff in *; exact H. Qed.
(* every point that a accepts, b accepts *)
Lemma Incl3_api {A : arith} (a b : BoundingBox3 (num A)) : Incl3 a b <-> forall p, bb3_is_inside a p = true -> bb3_is_inside b p = true.
Proof. unfold Incl3. split; intros H p; specialize (H p); rewrite !bb3_is_inside_iff in *; exact H. Qed.
Lemma C03_new_seen_through_is_inside_2d_pf : forall (A : arith) (p1 p2 : Point2 (num A)), NoNaN2 p1 -> NoNaN2 p2 -> let b := bb2_new p1 p2 in
  bb2_is_inside b p1 = true /\ bb2_is_inside b p2 = true /\
  (forall c, bb2_is_inside c p1 = true -> bb2_is_inside c p2 = true -> forall p, bb2_is_inside b p = true -> bb2_is_inside c p = true) /\
  (forall p, bb2_is_inside (bb2_new p2 p1) p = bb2_is_inside b p).
Proof.
  intros A p1 p2 N1 N2 b. destruct (C03_new_is_smallest_box_2d A p1 p2 N1 N2) as (_ & I1 & I2 & M & _).
  destruct (C03_new_is_smallest_box_2d A p2 p1 N2 N1) as (_ & J1 & J2 & M' & _). split; [now apply bb2_is_inside_iff|]. split; [now apply bb2_is_inside_iff|]. split.
  - intros c H1 H2. apply Incl2_api. apply M; now apply bb2_is_inside_iff.
  - intros p. apply eq_true_iff_eq. split; apply Incl2_api; [now apply M' | now apply M].
Qed.
Lemma C03_new_seen_through_is_inside_3d_pf : forall (A : arith) (p1 p2 : Point3 (num A)), NoNaN3 p1 -> NoNaN3 p2 -> let b := bb3_new p1 p2 in
  bb3_is_inside b p1 = true /\ bb3_is_inside b p2 = true /\
  (forall c, bb3_is_inside c p1 = true -> bb3_is_inside c p2 = true -> forall p, bb3_is_inside b p = true -> bb3_is_inside c p = true) /\
  (forall p, bb3_is_inside (bb3_new p2 p1) p = bb3_is_inside b p).
Proof.
  intros A p1 p2 N1 N2 b. destruct (C03_new_is_smallest_box_3d A p1 p2 N1 N2) as (_ & I1 & I2 & M & _).
  destruct (C03_new_is_smallest_box_3d A p2 p1 N2 N1) as (_ & J1 & J2 & M' & _). split; [now apply bb3_is_inside_iff|]. split; [now apply bb3_is_inside_iff|]. split.
  - intros c H1 H2. apply Incl3_api. apply M; now apply bb3_is_inside_iff.
  - intros p. apply eq_true_iff_eq. split; apply Incl3_api; [now apply M' | now apply M].
Qed.
Lemma C05_union_seen_through_is_inside_2d_pf : forall (A : arith) (a b : BoundingBox2 (num A)), Ordered2 a -> Ordered2 b -> let u := bb2_union a b in
  (forall p, bb2_is_inside a p = true \/ bb2_is_inside b p = true -> bb2_is_inside u p = true) /\
  (forall c, (forall p, bb2_is_inside a p = true \/ bb2_is_inside b p = true -> bb2_is_inside c p = true) -> forall p, bb2_is_inside u p = true -> bb2_is_inside c p = true).
Proof.
  intros A a b Oa Ob u. destruct (C05_union_is_smallest_box_2d A a b Oa Ob) as (I & M & _). split.
  - intros p. rewrite !bb2_is_inside_iff. apply I.
  - intros c H. apply Incl2_api. apply M; apply Incl2_api; intros p K; apply H; tauto.
Qed.
Lemma C05_union_seen_through_is_inside_3d_pf : forall (A : arith) (a b : BoundingBox3 (num A)), Ordered3 a -> Ordered3 b -> let u := bb3_union a b in
  (forall p, bb3_is_inside a p = true \/ bb3_is_inside b p = true -> bb3_is_inside u p = true) /\
  (forall c, (forall p, bb3_is_inside a p = true \/ bb3_is_inside b p = true -> bb3_is_inside c p = true) -> forall p, bb3_is_inside u p = true -> bb3_is_inside c p = true).
Proof.
  intros A a b Oa Ob u. destruct (C05_union_is_smallest_box_3d A a b Oa Ob) as (I & M & _). split.
  - intros p. rewrite !bb3_is_inside_iff. apply I.
  - intros c H. apply Incl3_api. apply M; apply Incl3_api; intros p K; apply H; tauto.
Qed.
Lemma C08_accumulated_seen_through_is_inside_2d_pf : forall (A : arith) (l : list (Point2 (num A))), l <> [] -> (forall p, In p l -> NoNaN2 p) -> let b := fold_left bb2_union_point l bb2_empty in
  (forall p, In p l -> bb2_is_inside b p = true) /\
  (forall c, (forall p, In p l -> bb2_is_inside c p = true) -> forall p, bb2_is_inside b p = true -> bb2_is_inside c p = true).
Proof.
  intros A l N H b. destruct (C08_accumulated_box_is_tight_2d A l N H) as (_ & I & M & _). split.
  - intros p K. apply bb2_is_inside_iff. now apply I.
  - intros c K. apply Incl2_api. apply M. intros p J. apply bb2_is_inside_iff. now apply K.
Qed.
Lemma C08_accumulated_seen_through_is_inside_3d_pf : forall (A : arith) (l : list (Point3 (num A))), l <> [] -> (forall p, In p l -> NoNaN3 p) -> let b := fold_left bb3_union_point l bb3_empty in
  (forall p, In p l -> bb3_is_inside b p = true) /\
  (forall c, (forall p, In p l -> bb3_is_inside c p = true) -> forall p, bb3_is_inside b p = true -> bb3_is_inside c p = true).
Proof.
  intros A l N H b. destruct (C08_accumulated_box_is_tight_3d A l N H) as (_ & I & M & _). split.
  - intros p K. apply bb3_is_inside_iff. now apply I.
  - intros c K. apply Incl3_api. apply M. intros p J. apply bb3_is_inside_iff. now apply K.
Qed.
Lemma C09_overlaps_seen_through_is_inside_2d_pf : forall (A : arith) (a b : BoundingBox2 (num A)), Ordered2 a -> Ordered2 b ->
  (bb2_overlaps a b = true <-> exists p, bb2_is_inside a p = true /\ bb2_is_inside b p = true).
Proof.
  intros A a b Oa Ob. rewrite (C09_overlaps_iff_common_point_2d A a b Oa Ob). split; intros [p K]; exists p; rewrite !bb2_is_inside_iff in *; exact K.
Qed.
Lemma C09_overlaps_seen_through_is_inside_3d_pf : forall (A : arith) (a b : BoundingBox3 (num A)), Ordered3 a -> Ordered3 b ->
  (bb3_overlaps a b = true <-> exists p, bb3_is_inside a p = true /\ bb3_is_inside b p = true).
Proof.
  intros A a b Oa Ob. rewrite (C09_overlaps_iff_common_point_3d A a b Oa Ob). split; intros [p K]; exists p; rewrite !bb3_is_inside_iff in *; exact K.
Qed.
Lemma C10_intersect_seen_through_is_inside_2d_pf : forall (A : arith) (a b : BoundingBox2 (num A)), Ordered2 a -> Ordered2 b ->
  match bb2_intersect a b with
  | Some c => (forall p, bb2_is_inside c p = bb2_is_inside a p && bb2_is_inside b p) /\ (exists p, bb2_is_inside c p = true)
  | None => forall p, bb2_is_inside a p && bb2_is_inside b p = false
  end.
Proof.
  intros A a b Oa Ob. destruct (bb2_intersect a b) as [c|] eqn:E.
  - destruct (C10_intersect_some_2d A a b c Oa Ob E) as [Oc K]. split.
    + intros p. apply eq_true_iff_eq. rewrite andb_true_iff, !bb2_is_inside_iff. apply K.
    + exists (bb2_min c). apply bb2_is_inside_iff. now apply (In2_min (num_OrdLaws A)).
  - pose proof (proj1 (C10_intersect_none_2d A a b Oa Ob) E) as K. intros p. apply not_true_iff_false. rewrite andb_true_iff, !bb2_is_inside_iff. intros J. apply K. now exists p.
Qed.
Lemma C10_intersect_seen_through_is_inside_3d_pf : forall (A : arith) (a b : BoundingBox3 (num A)), Ordered3 a -> Ordered3 b ->
  match bb3_intersect a b with
  | Some c => (forall p, bb3_is_inside c p = bb3_is_inside a p && bb3_is_inside b p) /\ (exists p, bb3_is_inside c p = true)
  | None => forall p, bb3_is_inside a p && bb3_is_inside b p = false
  end.
Proof.
  intros A a b Oa Ob. destruct (bb3_intersect a b) as [c|] eqn:E.
  - destruct (C10_intersect_some_3d A a b c Oa Ob E) as [Oc K]. split.
    + intros p. apply eq_true_iff_eq. rewrite andb_true_iff, !bb3_is_inside_iff. apply K.
    + exists (bb3_min c). apply bb3_is_inside_iff. now apply (In3_min (num_OrdLaws A)).
  - pose proof (proj1 (C10_intersect_none_3d A a b Oa Ob) E) as K. intros p. apply not_true_iff_false. rewrite andb_true_iff, !bb3_is_inside_iff. intros J. apply K. now exists p.
Qed.
Lemma C61_history_seen_through_is_inside_2d_pf : forall (A : arith) (l : list (item2 (num A))), l <> [] -> Forall item_ok2 l -> let r := fold_left grow2 l bb2_empty in
  let accepts (b : BoundingBox2 (num A)) := (forall p, In (AddPoint2 p) l -> bb2_is_inside b p = true) /\
    (forall a p, In (AddBox2 a) l -> bb2_is_inside a p = true -> bb2_is_inside b p = true) in
  accepts r /\ (forall c, accepts c -> forall p, bb2_is_inside r p = true -> bb2_is_inside c p = true).
Proof.
  intros A l N H r accepts. destruct (C61_history_is_smallest_box_2d A l N H) as (_ & I & M). fold r in I, M. split.
  - split; [intros p K; apply bb2_is_inside_iff; exact (I _ K) | intros a p K; revert p; apply Incl2_api; exact (I _ K)].
  - intros c [K1 K2]. apply Incl2_api. apply M. intros [p|a] J; [apply bb2_is_inside_iff; now apply K1 | apply Incl2_api; intros p; now apply K2].
Qed.
Lemma C61_history_seen_through_is_inside_3d_pf : forall (A : arith) (l : list (item3 (num A))), l <> [] -> Forall item_ok3 l -> let r := fold_left grow3 l bb3_empty in
  let accepts (b : BoundingBox3 (num A)) := (forall p, In (AddPoint3 p) l -> bb3_is_inside b p = true) /\
    (forall a p, In (AddBox3 a) l -> bb3_is_inside a p = true -> bb3_is_inside b p = true) in
  accepts r /\ (forall c, accepts c -> forall p, bb3_is_inside r p = true -> bb3_is_inside c p = true).
Proof.
  intros A l N H r accepts. destruct (C61_history_is_smallest_box_3d A l N H) as (_ & I & M). fold r in I, M. split.
  - split; [intros p K; apply bb3_is_inside_iff; exact (I _ K) | intros a p K; revert p; apply Incl3_api; exact (I _ K)].
  - intros c [K1 K2]. apply Incl3_api. apply M. intros [p|a] J; [apply bb3_is_inside_iff; now apply K1 | apply Incl3_api; intros p; now apply K2].
Qed.
