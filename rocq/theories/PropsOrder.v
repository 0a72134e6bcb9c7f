(** Property theorems C01-C11, C14 (dimensions), C18, C32, C53: order-based properties.
    [A : arith] ranges over f32 and f64 on every platform (all bit patterns) and over exact arithmetic. *)
From Coq Require Import Bool NArith ZArith List.
From Verif Require Import Scalar Types Vector2 Vector3 Point2 Point3 Ray BoundingBox2 BoundingBox3
  Float XReal OrdLaws Arith SpecOrder SpecStruct OrderProofs OrderBox EqProofs ExVals.
Import ListNotations.

(** C01 *)
Theorem C01_scalar_min : forall (A : arith) (x y : num A),
  (s_min x y = x \/ s_min x y = y) /\
  (NoNaN x -> NoNaN y -> Le (s_min x y) x /\ Le (s_min x y) y) /\
  (~ NoNaN x -> s_min x y = y) /\ (~ NoNaN y -> NoNaN x -> s_min x y = x).
Proof. exact (fun A => scalar_min_law (num_OrdLaws A)). Qed.
Print Assumptions C01_scalar_min.
Theorem C01_scalar_max : forall (A : arith) (x y : num A),
  (s_max x y = x \/ s_max x y = y) /\
  (NoNaN x -> NoNaN y -> Le x (s_max x y) /\ Le y (s_max x y)) /\
  (~ NoNaN x -> s_max x y = y) /\ (~ NoNaN y -> NoNaN x -> s_max x y = x).
Proof. exact (fun A => scalar_max_law (num_OrdLaws A)). Qed.
Print Assumptions C01_scalar_max.
Example C01_example : s_min (d64 1 0) (d64 2 0) = d64 1 0 /\ NoNaN (d64 1 0) /\ s_max nan64 (d64 2 0) = d64 2 0 /\ ~ NoNaN nan64.
Proof. split; [reflexivity|]. split; [reflexivity|]. split; [reflexivity|]. discriminate. Qed.

(** C02 *)
Theorem C02_point_min_max_2d : forall (A : arith) (a b c : Point2 (num A)),
  NoNaN2 a -> NoNaN2 b -> NoNaN2 c ->
  (* min is the greatest lower bound, max the least upper bound, coordinate by coordinate *)
  (PLe2 (p2_min a b) a /\ PLe2 (p2_min a b) b /\ (forall x, PLe2 x a -> PLe2 x b -> PLe2 x (p2_min a b))) /\
  (PLe2 a (p2_max a b) /\ PLe2 b (p2_max a b) /\ (forall x, PLe2 a x -> PLe2 b x -> PLe2 (p2_max a b) x)) /\
  (PEq2 (p2_min a b) (p2_min b a) /\ PEq2 (p2_min (p2_min a b) c) (p2_min a (p2_min b c)) /\ PEq2 (p2_min a a) a) /\
  (PEq2 (p2_max a b) (p2_max b a) /\ PEq2 (p2_max (p2_max a b) c) (p2_max a (p2_max b c)) /\ PEq2 (p2_max a a) a).
Proof. exact (fun A a b c Ha Hb Hc => let L := num_OrdLaws A in
  conj (p2_min_glb L a b Ha Hb) (conj (p2_max_lub L a b Ha Hb) (conj (p2_min_algebra L a b c Ha Hb Hc) (p2_max_algebra L a b c Ha Hb Hc)))). Qed.
Print Assumptions C02_point_min_max_2d.

Theorem C02_vector_min_max_2d : forall (A : arith) (a b c : Vector2 (num A)),
  VNoNaN2 a -> VNoNaN2 b -> VNoNaN2 c ->
  (VLe2 (v2_min a b) a /\ VLe2 (v2_min a b) b /\ (forall x, VLe2 x a -> VLe2 x b -> VLe2 x (v2_min a b))) /\
  (VLe2 a (v2_max a b) /\ VLe2 b (v2_max a b) /\ (forall x, VLe2 a x -> VLe2 b x -> VLe2 (v2_max a b) x)) /\
  (VEq2 (v2_min a b) (v2_min b a) /\ VEq2 (v2_min (v2_min a b) c) (v2_min a (v2_min b c)) /\ VEq2 (v2_min a a) a) /\
  (VEq2 (v2_max a b) (v2_max b a) /\ VEq2 (v2_max (v2_max a b) c) (v2_max a (v2_max b c)) /\ VEq2 (v2_max a a) a).
Proof. exact (fun A a b c Ha Hb Hc => let L := num_OrdLaws A in
  conj (v2_min_glb L a b Ha Hb) (conj (v2_max_lub L a b Ha Hb) (conj (v2_min_algebra L a b c Ha Hb Hc) (v2_max_algebra L a b c Ha Hb Hc)))). Qed.
Print Assumptions C02_vector_min_max_2d.

(** C03 *)
Theorem C03_new_is_smallest_box_2d : forall (A : arith) (p1 p2 : Point2 (num A)), NoNaN2 p1 -> NoNaN2 p2 ->
  Ordered2 (bb2_new p1 p2) /\ In2 p1 (bb2_new p1 p2) /\ In2 p2 (bb2_new p1 p2) /\
  (forall c, In2 p1 c -> In2 p2 c -> Incl2 (bb2_new p1 p2) c) /\
  BEq2 (bb2_new p1 p2) (bb2_new p2 p1).
Proof. exact (fun A => bb2_new_smallest (num_OrdLaws A)). Qed.
Print Assumptions C03_new_is_smallest_box_2d.

(** C04 *)
Theorem C04_is_inside_2d : forall (A : arith) (b : BoundingBox2 (num A)) (p : Point2 (num A)),
  bb2_is_inside b p = true <-> In2 p b.
Proof. exact (fun A => bb2_is_inside_iff). Qed.
Print Assumptions C04_is_inside_2d.
Theorem C04_nan_is_outside_2d : forall (A : arith) (b : BoundingBox2 (num A)) (p : Point2 (num A)) (d : Dimension2),
  ~ NoNaN (coord2 p d) -> bb2_is_inside b p = false.
Proof. exact (fun A => bb2_is_inside_nan (num_OrdLaws A)). Qed.
Print Assumptions C04_nan_is_outside_2d.
Theorem C04_empty_contains_nothing_2d : forall (A : arith) (p : Point2 (num A)), bb2_is_inside bb2_empty p = false.
Proof. exact (fun A => bb2_empty_none (num_OrdLaws A)). Qed.
Print Assumptions C04_empty_contains_nothing_2d.
Theorem C04_infinite_contains_all_2d : forall (A : arith) (p : Point2 (num A)), NoNaN2 p -> bb2_is_inside bb2_infinite p = true.
Proof. exact (fun A => bb2_infinite_all (num_OrdLaws A)). Qed.
Print Assumptions C04_infinite_contains_all_2d.

(** C05 *)
Theorem C05_union_is_smallest_box_2d : forall (A : arith) (a b : BoundingBox2 (num A)), Ordered2 a -> Ordered2 b ->
  (forall p, In2 p a \/ In2 p b -> In2 p (bb2_union a b)) /\
  (forall c, Incl2 a c -> Incl2 b c -> Incl2 (bb2_union a b) c) /\
  Ordered2 (bb2_union a b).
Proof. exact (fun A => bb2_union_smallest (num_OrdLaws A)). Qed.
Print Assumptions C05_union_is_smallest_box_2d.

(** C06 *)
Theorem C06_union_algebra_2d : forall (A : arith) (a b c : BoundingBox2 (num A)), Ordered2 a -> Ordered2 b -> Ordered2 c ->
  BEq2 (bb2_union a b) (bb2_union b a) /\
  BEq2 (bb2_union (bb2_union a b) c) (bb2_union a (bb2_union b c)) /\
  BEq2 (bb2_union a a) a /\
  BEq2 (bb2_union a bb2_infinite) bb2_infinite /\
  BEq2 (bb2_union bb2_empty a) a /\ BEq2 (bb2_union a bb2_empty) a.
Proof. exact (fun A => bb2_union_algebra (num_OrdLaws A)). Qed.
Print Assumptions C06_union_algebra_2d.

(** C07: the full claim [union(empty, empty)] contains no point is false: it contains every NaN-free point *)
Theorem C07_union_of_empties_refuted_2d : forall (A : arith) (p : Point2 (num A)),
  NoNaN2 p -> In2 p (bb2_union bb2_empty bb2_empty).
Proof. exact (fun A => bb2_union_empty_empty (num_OrdLaws A)). Qed.
Print Assumptions C07_union_of_empties_refuted_2d.
Theorem C07_empty_neutral_2d : forall (A : arith) (b : BoundingBox2 (num A)), Ordered2 b ->
  BEq2 (bb2_union bb2_empty b) b /\ BEq2 (bb2_union b bb2_empty) b.
Proof. exact (fun A b H => conj (bb2_union_empty_l (num_OrdLaws A) b H) (bb2_union_empty_r (num_OrdLaws A) b H)). Qed.
Print Assumptions C07_empty_neutral_2d.

(** C08 *)
Theorem C08_accumulated_box_is_tight_2d : forall (A : arith) (l : list (Point2 (num A))),
  l <> [] -> (forall p, In p l -> NoNaN2 p) ->
  let b := fold_left bb2_union_point l bb2_empty in
  Ordered2 b /\
  (forall p, In p l -> In2 p b) /\
  (forall c, (forall p, In p l -> In2 p c) -> Incl2 b c) /\
  (forall d, exists p, In p l /\ Eqs (coord2 (bb2_min b) d) (coord2 p d)) /\
  (forall d, exists p, In p l /\ Eqs (coord2 (bb2_max b) d) (coord2 p d)).
Proof. exact (fun A => bb2_accumulate (num_OrdLaws A)). Qed.
Print Assumptions C08_accumulated_box_is_tight_2d.
Theorem C08_accumulation_order_irrelevant_2d : forall (A : arith) (l l' : list (Point2 (num A))),
  l <> [] -> (forall p, In p l -> NoNaN2 p) -> (forall p, In p l <-> In p l') ->
  BEq2 (fold_left bb2_union_point l bb2_empty) (fold_left bb2_union_point l' bb2_empty).
Proof. exact (fun A => bb2_accumulate_perm (num_OrdLaws A)). Qed.
Print Assumptions C08_accumulation_order_irrelevant_2d.

(** C09 *)
Theorem C09_overlaps_symmetric_2d : forall (A : arith) (a b : BoundingBox2 (num A)), bb2_overlaps a b = bb2_overlaps b a.
Proof. exact (fun A => bb2_overlaps_sym). Qed.
Print Assumptions C09_overlaps_symmetric_2d.
Theorem C09_overlaps_iff_common_point_2d : forall (A : arith) (a b : BoundingBox2 (num A)), Ordered2 a -> Ordered2 b ->
  (bb2_overlaps a b = true <-> exists p, In2 p a /\ In2 p b).
Proof. exact (fun A => bb2_overlaps_iff (num_OrdLaws A)). Qed.
Print Assumptions C09_overlaps_iff_common_point_2d.

(** C10 *)
Theorem C10_intersect_none_2d : forall (A : arith) (a b : BoundingBox2 (num A)), Ordered2 a -> Ordered2 b ->
  (bb2_intersect a b = None <-> ~ exists p, In2 p a /\ In2 p b).
Proof. exact (fun A => bb2_intersect_none (num_OrdLaws A)). Qed.
Print Assumptions C10_intersect_none_2d.
Theorem C10_intersect_some_2d : forall (A : arith) (a b c : BoundingBox2 (num A)), Ordered2 a -> Ordered2 b ->
  bb2_intersect a b = Some c -> Ordered2 c /\ (forall p, In2 p c <-> In2 p a /\ In2 p b).
Proof. exact (fun A => bb2_intersect_some (num_OrdLaws A)). Qed.
Print Assumptions C10_intersect_some_2d.

(** C11: false for the infinite box; true for every box not infinite in all directions *)
Theorem C11_intersect_infinite_empty_refuted_2d : forall (A : arith),
  exists c : BoundingBox2 (num A), bb2_intersect bb2_infinite bb2_empty = Some c /\ forall p, NoNaN2 p -> In2 p c.
Proof. exact (fun A => bb2_intersect_infinite_empty (num_OrdLaws A)). Qed.
Print Assumptions C11_intersect_infinite_empty_refuted_2d.
Theorem C11_intersect_empty_none_2d : forall (A : arith) (b : BoundingBox2 (num A)),
  (exists d, ~ Le sinf (coord2 (bb2_max b) d) \/ ~ Le (coord2 (bb2_min b) d) sninf) ->
  bb2_intersect b bb2_empty = None /\ bb2_intersect bb2_empty b = None.
Proof. exact (fun A => bb2_intersect_empty_none). Qed.
Print Assumptions C11_intersect_empty_none_2d.

(** C14 (choice of dimension; the ordering part of C14) *)
Theorem C14_box_min_dimension_2d : forall (A : arith) (b : BoundingBox2 (num A)),
  (forall d, NoNaN (bb2_extent b d)) -> forall d,
  Le (bb2_extent b (bb2_min_dimension b)) (bb2_extent b d) /\
  (dim2_index d < dim2_index (bb2_min_dimension b) -> Lt (bb2_extent b (bb2_min_dimension b)) (bb2_extent b d))%nat.
Proof. exact (fun A => bb2_min_dimension_law (num_OrdLaws A)). Qed.
Print Assumptions C14_box_min_dimension_2d.
Theorem C14_box_max_dimension_2d : forall (A : arith) (b : BoundingBox2 (num A)),
  (forall d, NoNaN (bb2_extent b d)) -> forall d,
  Le (bb2_extent b d) (bb2_extent b (bb2_max_dimension b)) /\
  (dim2_index (bb2_max_dimension b) < dim2_index d -> Lt (bb2_extent b d) (bb2_extent b (bb2_max_dimension b)))%nat.
Proof. exact (fun A => bb2_max_dimension_law (num_OrdLaws A)). Qed.
Print Assumptions C14_box_max_dimension_2d.

(** C18 *)
Theorem C18_ray_range_well_formed_2d : forall (A : arith) (b : BoundingBox2 (num A)) (r : Ray2 (num A)) s e,
  bb2_intersect_ray b r = Some (s, e) -> NoNaN s /\ NoNaN e /\ Le szero s /\ Le s e.
Proof. exact (fun A => bb2_ray_wf (num_OrdLaws A)). Qed.
Print Assumptions C18_ray_range_well_formed_2d.

(** C32 *)
Theorem C32_point_min_dimension_2d : forall (A : arith) (p : Point2 (num A)), NoNaN2 p -> forall d,
  Le (sabs (coord2 p (p2_min_dimension p))) (sabs (coord2 p d)) /\
  (dim2_index d < dim2_index (p2_min_dimension p) -> Lt (sabs (coord2 p (p2_min_dimension p))) (sabs (coord2 p d)))%nat.
Proof. exact (fun A => p2_min_dimension_law (num_OrdLaws A)). Qed.
Print Assumptions C32_point_min_dimension_2d.
Theorem C32_point_max_dimension_2d : forall (A : arith) (p : Point2 (num A)), NoNaN2 p -> forall d,
  Le (sabs (coord2 p d)) (sabs (coord2 p (p2_max_dimension p))) /\
  (dim2_index (p2_max_dimension p) < dim2_index d -> Lt (sabs (coord2 p d)) (sabs (coord2 p (p2_max_dimension p))))%nat.
Proof. exact (fun A => p2_max_dimension_law (num_OrdLaws A)). Qed.
Print Assumptions C32_point_max_dimension_2d.
Theorem C32_vector_min_dimension_2d : forall (A : arith) (p : Vector2 (num A)), VNoNaN2 p -> forall d,
  Le (sabs (vcoord2 p (v2_min_dimension p))) (sabs (vcoord2 p d)) /\
  (dim2_index d < dim2_index (v2_min_dimension p) -> Lt (sabs (vcoord2 p (v2_min_dimension p))) (sabs (vcoord2 p d)))%nat.
Proof. exact (fun A => v2_min_dimension_law (num_OrdLaws A)). Qed.
Print Assumptions C32_vector_min_dimension_2d.
Theorem C32_vector_max_dimension_2d : forall (A : arith) (p : Vector2 (num A)), VNoNaN2 p -> forall d,
  Le (sabs (vcoord2 p d)) (sabs (vcoord2 p (v2_max_dimension p))) /\
  (dim2_index (v2_max_dimension p) < dim2_index d -> Lt (sabs (vcoord2 p d)) (sabs (vcoord2 p (v2_max_dimension p))))%nat.
Proof. exact (fun A => v2_max_dimension_law (num_OrdLaws A)). Qed.
Print Assumptions C32_vector_max_dimension_2d.

(** non-vacuity at f64: boxes and points meeting the hypotheses above, with the expected results *)
Example order_examples_2d :
  (Ordered2 boxA2 /\ Ordered2 boxB2 /\ In2 ptA2 boxA2) /\ (NoNaN2 ptA2 /\ NoNaN2 ptB2 /\ NoNaN2 (bb2_min boxA2)) /\
  bb2_overlaps boxA2 boxB2 = true /\ is_some (bb2_intersect boxA2 boxB2) = true /\
  bb2_is_inside (fold_left bb2_union_point [ptA2; ptB2] bb2_empty) ptB2 = true /\
  (forall d, NoNaN (bb2_extent boxA2 d)) /\
  ~ Le sinf (coord2 (bb2_max boxA2) D2X) /\
  ~ NoNaN (coord2 ptN2 D2X) /\
  is_some (bb2_intersect_ray boxA2 rayA2) = true.
Proof.
  split; [split; [|split; [|split]]; intros []; vm_compute; reflexivity|].
  split; [split; [|split]; intros []; vm_compute; reflexivity|].
  split; [vm_compute; reflexivity|]. split; [vm_compute; reflexivity|]. split; [vm_compute; reflexivity|].
  split; [intros []; vm_compute; reflexivity|].
  split; [vm_compute; discriminate|]. split; [vm_compute; discriminate|]. vm_compute; reflexivity.
Qed.

(** C02 *)
Theorem C02_point_min_max_3d : forall (A : arith) (a b c : Point3 (num A)),
  NoNaN3 a -> NoNaN3 b -> NoNaN3 c ->
  (* min is the greatest lower bound, max the least upper bound, coordinate by coordinate *)
  (PLe3 (p3_min a b) a /\ PLe3 (p3_min a b) b /\ (forall x, PLe3 x a -> PLe3 x b -> PLe3 x (p3_min a b))) /\
  (PLe3 a (p3_max a b) /\ PLe3 b (p3_max a b) /\ (forall x, PLe3 a x -> PLe3 b x -> PLe3 (p3_max a b) x)) /\
  (PEq3 (p3_min a b) (p3_min b a) /\ PEq3 (p3_min (p3_min a b) c) (p3_min a (p3_min b c)) /\ PEq3 (p3_min a a) a) /\
  (PEq3 (p3_max a b) (p3_max b a) /\ PEq3 (p3_max (p3_max a b) c) (p3_max a (p3_max b c)) /\ PEq3 (p3_max a a) a).
Proof. exact (fun A a b c Ha Hb Hc => let L := num_OrdLaws A in
  conj (p3_min_glb L a b Ha Hb) (conj (p3_max_lub L a b Ha Hb) (conj (p3_min_algebra L a b c Ha Hb Hc) (p3_max_algebra L a b c Ha Hb Hc)))). Qed.
Print Assumptions C02_point_min_max_3d.

Theorem C02_vector_min_max_3d : forall (A : arith) (a b c : Vector3 (num A)),
  VNoNaN3 a -> VNoNaN3 b -> VNoNaN3 c ->
  (VLe3 (v3_min a b) a /\ VLe3 (v3_min a b) b /\ (forall x, VLe3 x a -> VLe3 x b -> VLe3 x (v3_min a b))) /\
  (VLe3 a (v3_max a b) /\ VLe3 b (v3_max a b) /\ (forall x, VLe3 a x -> VLe3 b x -> VLe3 (v3_max a b) x)) /\
  (VEq3 (v3_min a b) (v3_min b a) /\ VEq3 (v3_min (v3_min a b) c) (v3_min a (v3_min b c)) /\ VEq3 (v3_min a a) a) /\
  (VEq3 (v3_max a b) (v3_max b a) /\ VEq3 (v3_max (v3_max a b) c) (v3_max a (v3_max b c)) /\ VEq3 (v3_max a a) a).
Proof. exact (fun A a b c Ha Hb Hc => let L := num_OrdLaws A in
  conj (v3_min_glb L a b Ha Hb) (conj (v3_max_lub L a b Ha Hb) (conj (v3_min_algebra L a b c Ha Hb Hc) (v3_max_algebra L a b c Ha Hb Hc)))). Qed.
Print Assumptions C02_vector_min_max_3d.

(** C03 *)
Theorem C03_new_is_smallest_box_3d : forall (A : arith) (p1 p2 : Point3 (num A)), NoNaN3 p1 -> NoNaN3 p2 ->
  Ordered3 (bb3_new p1 p2) /\ In3 p1 (bb3_new p1 p2) /\ In3 p2 (bb3_new p1 p2) /\
  (forall c, In3 p1 c -> In3 p2 c -> Incl3 (bb3_new p1 p2) c) /\
  BEq3 (bb3_new p1 p2) (bb3_new p2 p1).
Proof. exact (fun A => bb3_new_smallest (num_OrdLaws A)). Qed.
Print Assumptions C03_new_is_smallest_box_3d.

(** C04 *)
Theorem C04_is_inside_3d : forall (A : arith) (b : BoundingBox3 (num A)) (p : Point3 (num A)),
  bb3_is_inside b p = true <-> In3 p b.
Proof. exact (fun A => bb3_is_inside_iff). Qed.
Print Assumptions C04_is_inside_3d.
Theorem C04_nan_is_outside_3d : forall (A : arith) (b : BoundingBox3 (num A)) (p : Point3 (num A)) (d : Dimension3),
  ~ NoNaN (coord3 p d) -> bb3_is_inside b p = false.
Proof. exact (fun A => bb3_is_inside_nan (num_OrdLaws A)). Qed.
Print Assumptions C04_nan_is_outside_3d.
Theorem C04_empty_contains_nothing_3d : forall (A : arith) (p : Point3 (num A)), bb3_is_inside bb3_empty p = false.
Proof. exact (fun A => bb3_empty_none (num_OrdLaws A)). Qed.
Print Assumptions C04_empty_contains_nothing_3d.
Theorem C04_infinite_contains_all_3d : forall (A : arith) (p : Point3 (num A)), NoNaN3 p -> bb3_is_inside bb3_infinite p = true.
Proof. exact (fun A => bb3_infinite_all (num_OrdLaws A)). Qed.
Print Assumptions C04_infinite_contains_all_3d.

(** C05 *)
Theorem C05_union_is_smallest_box_3d : forall (A : arith) (a b : BoundingBox3 (num A)), Ordered3 a -> Ordered3 b ->
  (forall p, In3 p a \/ In3 p b -> In3 p (bb3_union a b)) /\
  (forall c, Incl3 a c -> Incl3 b c -> Incl3 (bb3_union a b) c) /\
  Ordered3 (bb3_union a b).
Proof. exact (fun A => bb3_union_smallest (num_OrdLaws A)). Qed.
Print Assumptions C05_union_is_smallest_box_3d.

(** C06 *)
Theorem C06_union_algebra_3d : forall (A : arith) (a b c : BoundingBox3 (num A)), Ordered3 a -> Ordered3 b -> Ordered3 c ->
  BEq3 (bb3_union a b) (bb3_union b a) /\
  BEq3 (bb3_union (bb3_union a b) c) (bb3_union a (bb3_union b c)) /\
  BEq3 (bb3_union a a) a /\
  BEq3 (bb3_union a bb3_infinite) bb3_infinite /\
  BEq3 (bb3_union bb3_empty a) a /\ BEq3 (bb3_union a bb3_empty) a.
Proof. exact (fun A => bb3_union_algebra (num_OrdLaws A)). Qed.
Print Assumptions C06_union_algebra_3d.

(** C07: the full claim [union(empty, empty)] contains no point is false: it contains every NaN-free point *)
Theorem C07_union_of_empties_refuted_3d : forall (A : arith) (p : Point3 (num A)),
  NoNaN3 p -> In3 p (bb3_union bb3_empty bb3_empty).
Proof. exact (fun A => bb3_union_empty_empty (num_OrdLaws A)). Qed.
Print Assumptions C07_union_of_empties_refuted_3d.
Theorem C07_empty_neutral_3d : forall (A : arith) (b : BoundingBox3 (num A)), Ordered3 b ->
  BEq3 (bb3_union bb3_empty b) b /\ BEq3 (bb3_union b bb3_empty) b.
Proof. exact (fun A b H => conj (bb3_union_empty_l (num_OrdLaws A) b H) (bb3_union_empty_r (num_OrdLaws A) b H)). Qed.
Print Assumptions C07_empty_neutral_3d.

(** C08 *)
Theorem C08_accumulated_box_is_tight_3d : forall (A : arith) (l : list (Point3 (num A))),
  l <> [] -> (forall p, In p l -> NoNaN3 p) ->
  let b := fold_left bb3_union_point l bb3_empty in
  Ordered3 b /\
  (forall p, In p l -> In3 p b) /\
  (forall c, (forall p, In p l -> In3 p c) -> Incl3 b c) /\
  (forall d, exists p, In p l /\ Eqs (coord3 (bb3_min b) d) (coord3 p d)) /\
  (forall d, exists p, In p l /\ Eqs (coord3 (bb3_max b) d) (coord3 p d)).
Proof. exact (fun A => bb3_accumulate (num_OrdLaws A)). Qed.
Print Assumptions C08_accumulated_box_is_tight_3d.
Theorem C08_accumulation_order_irrelevant_3d : forall (A : arith) (l l' : list (Point3 (num A))),
  l <> [] -> (forall p, In p l -> NoNaN3 p) -> (forall p, In p l <-> In p l') ->
  BEq3 (fold_left bb3_union_point l bb3_empty) (fold_left bb3_union_point l' bb3_empty).
Proof. exact (fun A => bb3_accumulate_perm (num_OrdLaws A)). Qed.
Print Assumptions C08_accumulation_order_irrelevant_3d.

(** C09 *)
Theorem C09_overlaps_symmetric_3d : forall (A : arith) (a b : BoundingBox3 (num A)), bb3_overlaps a b = bb3_overlaps b a.
Proof. exact (fun A => bb3_overlaps_sym). Qed.
Print Assumptions C09_overlaps_symmetric_3d.
Theorem C09_overlaps_iff_common_point_3d : forall (A : arith) (a b : BoundingBox3 (num A)), Ordered3 a -> Ordered3 b ->
  (bb3_overlaps a b = true <-> exists p, In3 p a /\ In3 p b).
Proof. exact (fun A => bb3_overlaps_iff (num_OrdLaws A)). Qed.
Print Assumptions C09_overlaps_iff_common_point_3d.

(** C10 *)
Theorem C10_intersect_none_3d : forall (A : arith) (a b : BoundingBox3 (num A)), Ordered3 a -> Ordered3 b ->
  (bb3_intersect a b = None <-> ~ exists p, In3 p a /\ In3 p b).
Proof. exact (fun A => bb3_intersect_none (num_OrdLaws A)). Qed.
Print Assumptions C10_intersect_none_3d.
Theorem C10_intersect_some_3d : forall (A : arith) (a b c : BoundingBox3 (num A)), Ordered3 a -> Ordered3 b ->
  bb3_intersect a b = Some c -> Ordered3 c /\ (forall p, In3 p c <-> In3 p a /\ In3 p b).
Proof. exact (fun A => bb3_intersect_some (num_OrdLaws A)). Qed.
Print Assumptions C10_intersect_some_3d.

(** C11: false for the infinite box; true for every box not infinite in all directions *)
Theorem C11_intersect_infinite_empty_refuted_3d : forall (A : arith),
  exists c : BoundingBox3 (num A), bb3_intersect bb3_infinite bb3_empty = Some c /\ forall p, NoNaN3 p -> In3 p c.
Proof. exact (fun A => bb3_intersect_infinite_empty (num_OrdLaws A)). Qed.
Print Assumptions C11_intersect_infinite_empty_refuted_3d.
Theorem C11_intersect_empty_none_3d : forall (A : arith) (b : BoundingBox3 (num A)),
  (exists d, ~ Le sinf (coord3 (bb3_max b) d) \/ ~ Le (coord3 (bb3_min b) d) sninf) ->
  bb3_intersect b bb3_empty = None /\ bb3_intersect bb3_empty b = None.
Proof. exact (fun A => bb3_intersect_empty_none). Qed.
Print Assumptions C11_intersect_empty_none_3d.

(** C14 (choice of dimension; the ordering part of C14) *)
Theorem C14_box_min_dimension_3d : forall (A : arith) (b : BoundingBox3 (num A)),
  (forall d, NoNaN (bb3_extent b d)) -> forall d,
  Le (bb3_extent b (bb3_min_dimension b)) (bb3_extent b d) /\
  (dim3_index d < dim3_index (bb3_min_dimension b) -> Lt (bb3_extent b (bb3_min_dimension b)) (bb3_extent b d))%nat.
Proof. exact (fun A => bb3_min_dimension_law (num_OrdLaws A)). Qed.
Print Assumptions C14_box_min_dimension_3d.
Theorem C14_box_max_dimension_3d : forall (A : arith) (b : BoundingBox3 (num A)),
  (forall d, NoNaN (bb3_extent b d)) -> forall d,
  Le (bb3_extent b d) (bb3_extent b (bb3_max_dimension b)) /\
  (dim3_index (bb3_max_dimension b) < dim3_index d -> Lt (bb3_extent b d) (bb3_extent b (bb3_max_dimension b)))%nat.
Proof. exact (fun A => bb3_max_dimension_law (num_OrdLaws A)). Qed.
Print Assumptions C14_box_max_dimension_3d.

(** C18 *)
Theorem C18_ray_range_well_formed_3d : forall (A : arith) (b : BoundingBox3 (num A)) (r : Ray3 (num A)) s e,
  bb3_intersect_ray b r = Some (s, e) -> NoNaN s /\ NoNaN e /\ Le szero s /\ Le s e.
Proof. exact (fun A => bb3_ray_wf (num_OrdLaws A)). Qed.
Print Assumptions C18_ray_range_well_formed_3d.

(** C32 *)
Theorem C32_point_min_dimension_3d : forall (A : arith) (p : Point3 (num A)), NoNaN3 p -> forall d,
  Le (sabs (coord3 p (p3_min_dimension p))) (sabs (coord3 p d)) /\
  (dim3_index d < dim3_index (p3_min_dimension p) -> Lt (sabs (coord3 p (p3_min_dimension p))) (sabs (coord3 p d)))%nat.
Proof. exact (fun A => p3_min_dimension_law (num_OrdLaws A)). Qed.
Print Assumptions C32_point_min_dimension_3d.
Theorem C32_point_max_dimension_3d : forall (A : arith) (p : Point3 (num A)), NoNaN3 p -> forall d,
  Le (sabs (coord3 p d)) (sabs (coord3 p (p3_max_dimension p))) /\
  (dim3_index (p3_max_dimension p) < dim3_index d -> Lt (sabs (coord3 p d)) (sabs (coord3 p (p3_max_dimension p))))%nat.
Proof. exact (fun A => p3_max_dimension_law (num_OrdLaws A)). Qed.
Print Assumptions C32_point_max_dimension_3d.
Theorem C32_vector_min_dimension_3d : forall (A : arith) (p : Vector3 (num A)), VNoNaN3 p -> forall d,
  Le (sabs (vcoord3 p (v3_min_dimension p))) (sabs (vcoord3 p d)) /\
  (dim3_index d < dim3_index (v3_min_dimension p) -> Lt (sabs (vcoord3 p (v3_min_dimension p))) (sabs (vcoord3 p d)))%nat.
Proof. exact (fun A => v3_min_dimension_law (num_OrdLaws A)). Qed.
Print Assumptions C32_vector_min_dimension_3d.
Theorem C32_vector_max_dimension_3d : forall (A : arith) (p : Vector3 (num A)), VNoNaN3 p -> forall d,
  Le (sabs (vcoord3 p d)) (sabs (vcoord3 p (v3_max_dimension p))) /\
  (dim3_index (v3_max_dimension p) < dim3_index d -> Lt (sabs (vcoord3 p d)) (sabs (vcoord3 p (v3_max_dimension p))))%nat.
Proof. exact (fun A => v3_max_dimension_law (num_OrdLaws A)). Qed.
Print Assumptions C32_vector_max_dimension_3d.

(** non-vacuity at f64: boxes and points meeting the hypotheses above, with the expected results *)
Example order_examples_3d :
  (Ordered3 boxA3 /\ Ordered3 boxB3 /\ In3 ptA3 boxA3) /\ (NoNaN3 ptA3 /\ NoNaN3 ptB3 /\ NoNaN3 (bb3_min boxA3)) /\
  bb3_overlaps boxA3 boxB3 = true /\ is_some (bb3_intersect boxA3 boxB3) = true /\
  bb3_is_inside (fold_left bb3_union_point [ptA3; ptB3] bb3_empty) ptB3 = true /\
  (forall d, NoNaN (bb3_extent boxA3 d)) /\
  ~ Le sinf (coord3 (bb3_max boxA3) D3X) /\
  ~ NoNaN (coord3 ptN3 D3X) /\
  is_some (bb3_intersect_ray boxA3 rayA3) = true.
Proof.
  split; [split; [|split; [|split]]; intros []; vm_compute; reflexivity|].
  split; [split; [|split]; intros []; vm_compute; reflexivity|].
  split; [vm_compute; reflexivity|]. split; [vm_compute; reflexivity|]. split; [vm_compute; reflexivity|].
  split; [intros []; vm_compute; reflexivity|].
  split; [vm_compute; discriminate|]. split; [vm_compute; discriminate|]. vm_compute; reflexivity.
Qed.

(** C53: the derived [==] of every type is component-wise [==], symmetric, transitive,
    and reflexive exactly on values all of whose components are not NaN *)
Theorem C53_derived_equality : forall (A : arith),
  derived_eq (T := Point2 (num A)) p2_eq p2_comps /\
  derived_eq (T := Point3 (num A)) p3_eq p3_comps /\
  derived_eq (T := Vector2 (num A)) v2_eq v2_comps /\
  derived_eq (T := Vector3 (num A)) v3_eq v3_comps /\
  derived_eq (T := Ray2 (num A)) r2_eq r2_comps /\
  derived_eq (T := Ray3 (num A)) r3_eq r3_comps /\
  derived_eq (T := BoundingBox2 (num A)) bb2_eq bb2_comps /\
  derived_eq (T := BoundingBox3 (num A)) bb3_eq bb3_comps /\
  derived_eq (T := Matrix3x3 (num A)) m3_eq m3_comps /\
  derived_eq (T := Matrix4x4 (num A)) m4_eq m4_comps /\
  derived_eq (T := Transform2 (num A)) t2_eq t2_comps /\
  derived_eq (T := Transform3 (num A)) t3_eq t3_comps.
Proof.
  intros A. pose proof (num_OrdLaws A) as L.
  split; [exact (derive L _ _ p2_eq_iff)|].
  split; [exact (derive L _ _ p3_eq_iff)|].
  split; [exact (derive L _ _ v2_eq_iff)|].
  split; [exact (derive L _ _ v3_eq_iff)|].
  split; [exact (derive L _ _ r2_eq_iff)|].
  split; [exact (derive L _ _ r3_eq_iff)|].
  split; [exact (derive L _ _ bb2_eq_iff)|].
  split; [exact (derive L _ _ bb3_eq_iff)|].
  split; [exact (derive L _ _ m3_eq_iff)|].
  split; [exact (derive L _ _ m4_eq_iff)|].
  split; [exact (derive L _ _ t2_eq_iff)|].
  exact (derive L _ _ t3_eq_iff).
Qed.
Print Assumptions C53_derived_equality.
Example C53_example : p2_eq ptA2 ptA2 = true /\ p2_eq ptN2 ptN2 = false /\ p2_eq (mkPoint2 (d64 0 0) (nd64 0 0)) (mkPoint2 (sneg (d64 0 0)) (d64 0 0)) = true.
Proof. split; [|split]; vm_compute; reflexivity. Qed.
