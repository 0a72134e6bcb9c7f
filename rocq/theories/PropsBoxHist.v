(** Theorems: C60 (growing a box when coordinates may be NaN), C61 (mixed histories of unions), C62 (lattice laws of
    intersect and union), C63 (a box is the hull of its corners). *)
From Coq Require Import Bool NArith ZArith List Lia.
From Verif Require Import Scalar Types Vector2 Vector3 Point2 Point3 Ray BoundingBox2 BoundingBox3 OrdLaws Arith SpecOrder OrderProofs OrderBox SpecHist ExVals BoxHist.
Import ListNotations.
(** * C60: growing a box from empty() when some coordinates are NaN.  The first point decides, separately in each dimension. *)
Theorem C60_growing_with_nan_2d : forall (A : arith) (p0 : Point2 (num A)) (l : list (Point2 (num A))) (d : Dimension2),
  let b := fold_left bb2_union_point (p0 :: l) bb2_empty in let lo := coord2 (bb2_min b) d in let hi := coord2 (bb2_max b) d in
  (NoNaN (coord2 p0 d) ->
     (forall p, In p (p0 :: l) -> NoNaN (coord2 p d) -> Le lo (coord2 p d) /\ Le (coord2 p d) hi) /\
     (exists p, In p (p0 :: l) /\ Eqs lo (coord2 p d)) /\ (exists p, In p (p0 :: l) /\ Eqs hi (coord2 p d))) /\
  (~ NoNaN (coord2 p0 d) -> Eqs lo sninf /\ Eqs hi sinf).
Proof. exact C60_growing_with_nan_2d_pf. Qed.
Print Assumptions C60_growing_with_nan_2d.
Theorem C60_growing_with_nan_3d : forall (A : arith) (p0 : Point3 (num A)) (l : list (Point3 (num A))) (d : Dimension3),
  let b := fold_left bb3_union_point (p0 :: l) bb3_empty in let lo := coord3 (bb3_min b) d in let hi := coord3 (bb3_max b) d in
  (NoNaN (coord3 p0 d) ->
     (forall p, In p (p0 :: l) -> NoNaN (coord3 p d) -> Le lo (coord3 p d) /\ Le (coord3 p d) hi) /\
     (exists p, In p (p0 :: l) /\ Eqs lo (coord3 p d)) /\ (exists p, In p (p0 :: l) /\ Eqs hi (coord3 p d))) /\
  (~ NoNaN (coord3 p0 d) -> Eqs lo sninf /\ Eqs hi sinf).
Proof. exact C60_growing_with_nan_3d_pf. Qed.
Print Assumptions C60_growing_with_nan_3d.
(** * C61: any history of unions with points and boxes, started at empty(), gives the smallest box covering everything added *)
Theorem C61_history_is_smallest_box_2d : forall (A : arith) (l : list (item2 (num A))), l <> [] -> Forall item_ok2 l ->
  let r := fold_left grow2 l bb2_empty in
  Ordered2 r /\ (forall i, In i l -> covers2 r i) /\ (forall c, (forall i, In i l -> covers2 c i) -> Incl2 r c).
Proof. exact C61_history_is_smallest_box_2d_pf. Qed.
Print Assumptions C61_history_is_smallest_box_2d.
Theorem C61_history_is_smallest_box_3d : forall (A : arith) (l : list (item3 (num A))), l <> [] -> Forall item_ok3 l ->
  let r := fold_left grow3 l bb3_empty in
  Ordered3 r /\ (forall i, In i l -> covers3 r i) /\ (forall c, (forall i, In i l -> covers3 c i) -> Incl3 r c).
Proof. exact C61_history_is_smallest_box_3d_pf. Qed.
Print Assumptions C61_history_is_smallest_box_3d.
(** and the order of the history, and repetitions in it, do not matter *)
Theorem C61_history_order_irrelevant_2d : forall (A : arith) (l l' : list (item2 (num A))), l <> [] -> Forall item_ok2 l -> (forall i, In i l <-> In i l') ->
  BEq2 (fold_left grow2 l bb2_empty) (fold_left grow2 l' bb2_empty).
Proof. exact C61_history_order_irrelevant_2d_pf. Qed.
Print Assumptions C61_history_order_irrelevant_2d.
Theorem C61_history_order_irrelevant_3d : forall (A : arith) (l l' : list (item3 (num A))), l <> [] -> Forall item_ok3 l -> (forall i, In i l <-> In i l') ->
  BEq3 (fold_left grow3 l bb3_empty) (fold_left grow3 l' bb3_empty).
Proof. exact C61_history_order_irrelevant_3d_pf. Qed.
Print Assumptions C61_history_order_irrelevant_3d.
(** * C62: with union, intersect makes the ordered boxes a lattice (with None as the bottom element) *)
Theorem C62_intersect_algebra_2d : forall (A : arith) (a b c : BoundingBox2 (num A)), Ordered2 a -> Ordered2 b -> Ordered2 c ->
  OEq2 (bb2_intersect a b) (bb2_intersect b a) /\
  OEq2 (match bb2_intersect a b with Some ab => bb2_intersect ab c | None => None end) (match bb2_intersect b c with Some bc => bb2_intersect a bc | None => None end) /\
  OEq2 (bb2_intersect a a) (Some a) /\
  OEq2 (bb2_intersect a bb2_infinite) (Some a) /\ OEq2 (bb2_intersect bb2_infinite a) (Some a).
Proof. exact C62_intersect_algebra_2d_pf. Qed.
Print Assumptions C62_intersect_algebra_2d.
Theorem C62_intersect_algebra_3d : forall (A : arith) (a b c : BoundingBox3 (num A)), Ordered3 a -> Ordered3 b -> Ordered3 c ->
  OEq3 (bb3_intersect a b) (bb3_intersect b a) /\
  OEq3 (match bb3_intersect a b with Some ab => bb3_intersect ab c | None => None end) (match bb3_intersect b c with Some bc => bb3_intersect a bc | None => None end) /\
  OEq3 (bb3_intersect a a) (Some a) /\
  OEq3 (bb3_intersect a bb3_infinite) (Some a) /\ OEq3 (bb3_intersect bb3_infinite a) (Some a).
Proof. exact C62_intersect_algebra_3d_pf. Qed.
Print Assumptions C62_intersect_algebra_3d.
Theorem C62_absorption_2d : forall (A : arith) (a b : BoundingBox2 (num A)), Ordered2 a -> Ordered2 b ->
  OEq2 (bb2_intersect a (bb2_union a b)) (Some a) /\ (forall c, bb2_intersect a b = Some c -> BEq2 (bb2_union a c) a).
Proof. exact C62_absorption_2d_pf. Qed.
Print Assumptions C62_absorption_2d.
Theorem C62_absorption_3d : forall (A : arith) (a b : BoundingBox3 (num A)), Ordered3 a -> Ordered3 b ->
  OEq3 (bb3_intersect a (bb3_union a b)) (Some a) /\ (forall c, bb3_intersect a b = Some c -> BEq3 (bb3_union a c) a).
Proof. exact C62_absorption_3d_pf. Qed.
Print Assumptions C62_absorption_3d.
(** inclusion of boxes is decided by union and by intersect *)
Theorem C62_inclusion_2d : forall (A : arith) (a b : BoundingBox2 (num A)), Ordered2 a -> Ordered2 b ->
  (Incl2 a b <-> OEq2 (bb2_intersect a b) (Some a)) /\ (Incl2 a b <-> BEq2 (bb2_union a b) b) /\
  (Incl2 a b <-> bb2_is_inside b (bb2_min a) = true /\ bb2_is_inside b (bb2_max a) = true).
Proof. exact C62_inclusion_2d_pf. Qed.
Print Assumptions C62_inclusion_2d.
Theorem C62_inclusion_3d : forall (A : arith) (a b : BoundingBox3 (num A)), Ordered3 a -> Ordered3 b ->
  (Incl3 a b <-> OEq3 (bb3_intersect a b) (Some a)) /\ (Incl3 a b <-> BEq3 (bb3_union a b) b) /\
  (Incl3 a b <-> bb3_is_inside b (bb3_min a) = true /\ bb3_is_inside b (bb3_max a) = true).
Proof. exact C62_inclusion_3d_pf. Qed.
Print Assumptions C62_inclusion_3d.
(** * C63: a box is the smallest box around its corners *)
Theorem C63_hull_of_corners_2d : forall (A : arith) (prof : profile) (b : BoundingBox2 (num A)), Ordered2 b ->
  exists c, map (bb2_corner prof b) [0; 1; 2; 3]%N = map Ret c /\ BEq2 (fold_left bb2_union_point c bb2_empty) b.
Proof. exact C63_hull_of_corners_2d_pf. Qed.
Print Assumptions C63_hull_of_corners_2d.
Theorem C63_hull_of_corners_3d : forall (A : arith) (prof : profile) (b : BoundingBox3 (num A)), Ordered3 b ->
  exists c, map (bb3_corner prof b) [0; 1; 2; 3; 4; 5; 6; 7]%N = map Ret c /\ BEq3 (fold_left bb3_union_point c bb3_empty) b.
Proof. exact C63_hull_of_corners_3d_pf. Qed.
Print Assumptions C63_hull_of_corners_3d.
(** the hypotheses are met: a history of points and boxes, a NaN coordinate in second place and in first place *)
Definition hist2 : list (item2 (num A64)) := [AddPoint2 ptA2; AddBox2 boxB2; AddPoint2 ptB2; AddBox2 boxA2].
Definition hist3 : list (item3 (num A64)) := [AddPoint3 ptA3; AddBox3 boxB3; AddPoint3 ptB3; AddBox3 boxA3].
Example C61_example_2d : hist2 <> [] /\ Forall item_ok2 hist2.
Proof. split; [discriminate|]. repeat constructor; intros []; vm_compute; reflexivity. Qed.
Example C61_example_3d : hist3 <> [] /\ Forall item_ok3 hist3.
Proof. split; [discriminate|]. repeat constructor; intros []; vm_compute; reflexivity. Qed.
(** the box of [(1, 1.5); (NaN, 1)] has x extent [1, 1]; the box of [(NaN, 1); (1, 1.5)] is infinite in x: order matters *)
Example C60_example_2d :
  let b := fold_left bb2_union_point [ptA2; ptN2] bb2_empty in let b' := fold_left bb2_union_point [ptN2; ptA2] bb2_empty in
  NoNaN (coord2 ptA2 D2X) /\ ~ NoNaN (coord2 ptN2 D2X) /\
  Eqs (coord2 (bb2_min b) D2X) (d64 1 0) /\ Eqs (coord2 (bb2_max b) D2X) (d64 1 0) /\
  Eqs (coord2 (bb2_min b') D2X) sninf /\ Eqs (coord2 (bb2_max b') D2X) sinf.
Proof. vm_compute. split; [reflexivity|]. split; [discriminate|]. repeat split. Qed.
Example C62_example_2d : Ordered2 boxA2 /\ Ordered2 boxB2 /\ is_some (bb2_intersect boxA2 boxB2) = true.
Proof. split; [|split]; [intros []; vm_compute; reflexivity | intros []; vm_compute; reflexivity | vm_compute; reflexivity]. Qed.
Example C62_example_3d : Ordered3 boxA3 /\ Ordered3 boxB3 /\ is_some (bb3_intersect boxA3 boxB3) = true.
Proof. split; [|split]; [intros []; vm_compute; reflexivity | intros []; vm_compute; reflexivity | vm_compute; reflexivity]. Qed.
