(** Theorems: C03, C05, C08, C09, C10, C61, seen through is_inside only.  [A] ranges over f32 and f64 on every platform, and exact reals. *)
From Coq Require Import Bool NArith ZArith List.
From Verif Require Import Scalar Types Point2 Point3 BoundingBox2 BoundingBox3 Float
  XReal Arith SpecOrder SpecHist ExVals BoxApi.
Import ListNotations.
(** ** C03 *)
Theorem C03_new_seen_through_is_inside_2d : forall (A : arith) (p1 p2 : Point2 (num A)), NoNaN2 p1 -> NoNaN2 p2 -> let b := bb2_new p1 p2 in
  bb2_is_inside b p1 = true /\ bb2_is_inside b p2 = true /\
  (forall c, bb2_is_inside c p1 = true -> bb2_is_inside c p2 = true -> forall p, bb2_is_inside b p = true -> bb2_is_inside c p = true) /\
  (forall p, bb2_is_inside (bb2_new p2 p1) p = bb2_is_inside b p).
Proof. exact C03_new_seen_through_is_inside_2d_pf. Qed.
Print Assumptions C03_new_seen_through_is_inside_2d.
Theorem C03_new_seen_through_is_inside_3d : forall (A : arith) (p1 p2 : Point3 (num A)), NoNaN3 p1 -> NoNaN3 p2 -> let b := bb3_new p1 p2 in
  bb3_is_inside b p1 = true /\ bb3_is_inside b p2 = true /\
  (forall c, bb3_is_inside c p1 = true -> bb3_is_inside c p2 = true -> forall p, bb3_is_inside b p = true -> bb3_is_inside c p = true) /\
  (forall p, bb3_is_inside (bb3_new p2 p1) p = bb3_is_inside b p).
Proof. exact C03_new_seen_through_is_inside_3d_pf. Qed.
Print Assumptions C03_new_seen_through_is_inside_3d.
(** ** C05 *)
Theorem C05_union_seen_through_is_inside_2d : forall (A : arith) (a b : BoundingBox2 (num A)), Ordered2 a -> Ordered2 b -> let u := bb2_union a b in
  (forall p, bb2_is_inside a p = true \/ bb2_is_inside b p = true -> bb2_is_inside u p = true) /\
  (forall c, (forall p, bb2_is_inside a p = true \/ bb2_is_inside b p = true -> bb2_is_inside c p = true) -> forall p, bb2_is_inside u p = true -> bb2_is_inside c p = true).
Proof. exact C05_union_seen_through_is_inside_2d_pf. Qed.
Print Assumptions C05_union_seen_through_is_inside_2d.
Theorem C05_union_seen_through_is_inside_3d : forall (A : arith) (a b : BoundingBox3 (num A)), Ordered3 a -> Ordered3 b -> let u := bb3_union a b in
  (forall p, bb3_is_inside a p = true \/ bb3_is_inside b p = true -> bb3_is_inside u p = true) /\
  (forall c, (forall p, bb3_is_inside a p = true \/ bb3_is_inside b p = true -> bb3_is_inside c p = true) -> forall p, bb3_is_inside u p = true -> bb3_is_inside c p = true).
Proof. exact C05_union_seen_through_is_inside_3d_pf. Qed.
Print Assumptions C05_union_seen_through_is_inside_3d.
(** ** C08 *)
Theorem C08_accumulated_seen_through_is_inside_2d : forall (A : arith) (l : list (Point2 (num A))), l <> [] -> (forall p, In p l -> NoNaN2 p) -> let b := fold_left bb2_union_point l bb2_empty in
  (forall p, In p l -> bb2_is_inside b p = true) /\
  (forall c, (forall p, In p l -> bb2_is_inside c p = true) -> forall p, bb2_is_inside b p = true -> bb2_is_inside c p = true).
Proof. exact C08_accumulated_seen_through_is_inside_2d_pf. Qed.
Print Assumptions C08_accumulated_seen_through_is_inside_2d.
Theorem C08_accumulated_seen_through_is_inside_3d : forall (A : arith) (l : list (Point3 (num A))), l <> [] -> (forall p, In p l -> NoNaN3 p) -> let b := fold_left bb3_union_point l bb3_empty in
  (forall p, In p l -> bb3_is_inside b p = true) /\
  (forall c, (forall p, In p l -> bb3_is_inside c p = true) -> forall p, bb3_is_inside b p = true -> bb3_is_inside c p = true).
Proof. exact C08_accumulated_seen_through_is_inside_3d_pf. Qed.
Print Assumptions C08_accumulated_seen_through_is_inside_3d.
(** ** C09 *)
Theorem C09_overlaps_seen_through_is_inside_2d : forall (A : arith) (a b : BoundingBox2 (num A)), Ordered2 a -> Ordered2 b ->
  (bb2_overlaps a b = true <-> exists p, bb2_is_inside a p = true /\ bb2_is_inside b p = true).
Proof. exact C09_overlaps_seen_through_is_inside_2d_pf. Qed.
Print Assumptions C09_overlaps_seen_through_is_inside_2d.
Theorem C09_overlaps_seen_through_is_inside_3d : forall (A : arith) (a b : BoundingBox3 (num A)), Ordered3 a -> Ordered3 b ->
  (bb3_overlaps a b = true <-> exists p, bb3_is_inside a p = true /\ bb3_is_inside b p = true).
Proof. exact C09_overlaps_seen_through_is_inside_3d_pf. Qed.
Print Assumptions C09_overlaps_seen_through_is_inside_3d.
(** ** C10 *)
Theorem C10_intersect_seen_through_is_inside_2d : forall (A : arith) (a b : BoundingBox2 (num A)), Ordered2 a -> Ordered2 b ->
  match bb2_intersect a b with
  | Some c => (forall p, bb2_is_inside c p = bb2_is_inside a p && bb2_is_inside b p) /\ (exists p, bb2_is_inside c p = true)
  | None => forall p, bb2_is_inside a p && bb2_is_inside b p = false
  end.
Proof. exact C10_intersect_seen_through_is_inside_2d_pf. Qed.
Print Assumptions C10_intersect_seen_through_is_inside_2d.
Theorem C10_intersect_seen_through_is_inside_3d : forall (A : arith) (a b : BoundingBox3 (num A)), Ordered3 a -> Ordered3 b ->
  match bb3_intersect a b with
  | Some c => (forall p, bb3_is_inside c p = bb3_is_inside a p && bb3_is_inside b p) /\ (exists p, bb3_is_inside c p = true)
  | None => forall p, bb3_is_inside a p && bb3_is_inside b p = false
  end.
Proof. exact C10_intersect_seen_through_is_inside_3d_pf. Qed.
Print Assumptions C10_intersect_seen_through_is_inside_3d.
(** ** C61 *)
Theorem C61_history_seen_through_is_inside_2d : forall (A : arith) (l : list (item2 (num A))), l <> [] -> Forall item_ok2 l -> let r := fold_left grow2 l bb2_empty in
  let accepts (b : BoundingBox2 (num A)) := (forall p, In (AddPoint2 p) l -> bb2_is_inside b p = true) /\
    (forall a p, In (AddBox2 a) l -> bb2_is_inside a p = true -> bb2_is_inside b p = true) in
  accepts r /\ (forall c, accepts c -> forall p, bb2_is_inside r p = true -> bb2_is_inside c p = true).
Proof. exact C61_history_seen_through_is_inside_2d_pf. Qed.
Print Assumptions C61_history_seen_through_is_inside_2d.
Theorem C61_history_seen_through_is_inside_3d : forall (A : arith) (l : list (item3 (num A))), l <> [] -> Forall item_ok3 l -> let r := fold_left grow3 l bb3_empty in
  let accepts (b : BoundingBox3 (num A)) := (forall p, In (AddPoint3 p) l -> bb3_is_inside b p = true) /\
    (forall a p, In (AddBox3 a) l -> bb3_is_inside a p = true -> bb3_is_inside b p = true) in
  accepts r /\ (forall c, accepts c -> forall p, bb3_is_inside r p = true -> bb3_is_inside c p = true).
Proof. exact C61_history_seen_through_is_inside_3d_pf. Qed.
Print Assumptions C61_history_seen_through_is_inside_3d.
Example box_api2_example : Ordered2 boxA2 /\ Ordered2 boxB2 /\ NoNaN2 ptA2 /\ NoNaN2 ptB2 /\ bb2_overlaps boxA2 boxB2 = true /\
  Forall item_ok2 [AddPoint2 ptA2; AddBox2 boxB2] /\ bb2_is_inside (fold_left grow2 [AddPoint2 ptA2; AddBox2 boxB2] bb2_empty) ptA2 = true.
Proof. repeat match goal with |- _ /\ _ => split end; try (intros []; vm_compute; reflexivity); try (vm_compute; reflexivity). repeat constructor; intros []; vm_compute; reflexivity. Qed.
Example box_api3_example : Ordered3 boxA3 /\ Ordered3 boxB3 /\ NoNaN3 ptA3 /\ NoNaN3 ptB3 /\ bb3_overlaps boxA3 boxB3 = true /\
  Forall item_ok3 [AddPoint3 ptA3; AddBox3 boxB3] /\ bb3_is_inside (fold_left grow3 [AddPoint3 ptA3; AddBox3 boxB3] bb3_empty) ptA3 = true.
Proof. repeat match goal with |- _ /\ _ => split end; try (intros []; vm_compute; reflexivity); try (vm_compute; reflexivity). repeat constructor; intros []; vm_compute; reflexivity. Qed.
