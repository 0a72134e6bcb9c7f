(** Theorems: C87 (components against lengths; lengths along the axes).
    [A] ranges over f32 and f64 on every platform, and exact reals (where unit_roundoff and min_subnormal are 0). *)
From Coq Require Import Bool NArith ZArith Reals List Lra Lia.
From Verif Require Import Scalar Types Vector2 Vector3 Point2 Point3 Float
  XReal Arith SpecOrder SpecFloat SpecReal SpecErr ExVals FloatErr FloatAxis.
Import ListNotations.
Local Open Scope R_scope.
(** the absolute value of a component is never above the computed length *)
Theorem C87_component_le_length_2d : forall (A : arith) (v : Vector2 (num A)) (d : Dimension2), VFinite2 v ->
  (Finite (v2_dot v v) -> min_subnormal A <= unit_roundoff A * real_of (v2_dot v v)) ->
  Le (sabs (vcoord2 v d)) (v2_length v).
Proof. exact C87_component_le_length_2d_pf. Qed.
Print Assumptions C87_component_le_length_2d.
Theorem C87_component_le_length_3d : forall (A : arith) (v : Vector3 (num A)) (d : Dimension3), VFinite3 v ->
  (Finite (v3_dot v v) -> min_subnormal A <= unit_roundoff A * real_of (v3_dot v v)) ->
  Le (sabs (vcoord3 v d)) (v3_length v).
Proof. exact C87_component_le_length_3d_pf. Qed.
Print Assumptions C87_component_le_length_3d.
(** so the components of a normalized vector are never outside -1 .. 1 *)
Theorem C87_normalized_components_2d : forall (A : arith) (v : Vector2 (num A)) (d : Dimension2), VFinite2 v -> Lt szero (v2_length v) ->
  (Finite (v2_dot v v) -> min_subnormal A <= unit_roundoff A * real_of (v2_dot v v)) ->
  Le (sneg sone) (vcoord2 (v2_normalize v) d) /\ Le (vcoord2 (v2_normalize v) d) sone.
Proof. exact C87_normalized_components_2d_pf. Qed.
Print Assumptions C87_normalized_components_2d.
Theorem C87_normalized_components_3d : forall (A : arith) (v : Vector3 (num A)) (d : Dimension3), VFinite3 v -> Lt szero (v3_length v) ->
  (Finite (v3_dot v v) -> min_subnormal A <= unit_roundoff A * real_of (v3_dot v v)) ->
  Le (sneg sone) (vcoord3 (v3_normalize v) d) /\ Le (vcoord3 (v3_normalize v) d) sone.
Proof. exact C87_normalized_components_3d_pf. Qed.
Print Assumptions C87_normalized_components_3d.
(** a vector along an axis has exactly the length of its component, and normalizes to exactly the axis *)
Theorem C87_axis_length_2d : forall (A : arith) (v : Vector2 (num A)) (d : Dimension2), (forall d', d' <> d -> Eqs (vcoord2 v d') szero) ->
  Finite (v2_dot v v) -> min_subnormal A <= unit_roundoff A * real_of (v2_dot v v) ->
  Eqs (v2_length v) (sabs (vcoord2 v d)).
Proof. exact C87_axis_length_2d_pf. Qed.
Print Assumptions C87_axis_length_2d.
Theorem C87_axis_length_3d : forall (A : arith) (v : Vector3 (num A)) (d : Dimension3), (forall d', d' <> d -> Eqs (vcoord3 v d') szero) ->
  Finite (v3_dot v v) -> min_subnormal A <= unit_roundoff A * real_of (v3_dot v v) ->
  Eqs (v3_length v) (sabs (vcoord3 v d)).
Proof. exact C87_axis_length_3d_pf. Qed.
Print Assumptions C87_axis_length_3d.
Theorem C87_axis_normalize_2d : forall (A : arith) (v : Vector2 (num A)) (d : Dimension2), (forall d', d' <> d -> Eqs (vcoord2 v d') szero) ->
  Finite (v2_dot v v) -> min_subnormal A <= unit_roundoff A * real_of (v2_dot v v) ->
  (Lt szero (vcoord2 v d) -> VEq2 (v2_normalize v) (v2_axis d)) /\
  (Lt (vcoord2 v d) szero -> VEq2 (v2_normalize v) (v2_neg (v2_axis d))).
Proof. exact C87_axis_normalize_2d_pf. Qed.
Print Assumptions C87_axis_normalize_2d.
Theorem C87_axis_normalize_3d : forall (A : arith) (v : Vector3 (num A)) (d : Dimension3), (forall d', d' <> d -> Eqs (vcoord3 v d') szero) ->
  Finite (v3_dot v v) -> min_subnormal A <= unit_roundoff A * real_of (v3_dot v v) ->
  (Lt szero (vcoord3 v d) -> VEq3 (v3_normalize v) (v3_axis d)) /\
  (Lt (vcoord3 v d) szero -> VEq3 (v3_normalize v) (v3_neg (v3_axis d))).
Proof. exact C87_axis_normalize_3d_pf. Qed.
Print Assumptions C87_axis_normalize_3d.
(** a distance is never below the computed difference of a coordinate, and equals it when the points differ along one axis only *)
Theorem C87_coordinate_difference_le_distance_2d : forall (A : arith) (p q : Point2 (num A)) (d : Dimension2), (forall e, Finite (ssub (coord2 q e) (coord2 p e))) ->
  (let w := p2_sub q p in Finite (v2_dot w w) -> min_subnormal A <= unit_roundoff A * real_of (v2_dot w w)) ->
  Le (sabs (ssub (coord2 q d) (coord2 p d))) (p2_distance p q).
Proof. exact C87_coordinate_difference_le_distance_2d_pf. Qed.
Print Assumptions C87_coordinate_difference_le_distance_2d.
Theorem C87_coordinate_difference_le_distance_3d : forall (A : arith) (p q : Point3 (num A)) (d : Dimension3), (forall e, Finite (ssub (coord3 q e) (coord3 p e))) ->
  (let w := p3_sub q p in Finite (v3_dot w w) -> min_subnormal A <= unit_roundoff A * real_of (v3_dot w w)) ->
  Le (sabs (ssub (coord3 q d) (coord3 p d))) (p3_distance p q).
Proof. exact C87_coordinate_difference_le_distance_3d_pf. Qed.
Print Assumptions C87_coordinate_difference_le_distance_3d.
Theorem C87_axis_distance_2d : forall (A : arith) (p q : Point2 (num A)) (d : Dimension2), (forall e, Finite (ssub (coord2 q e) (coord2 p e))) ->
  (forall d', d' <> d -> Eqs (coord2 q d') (coord2 p d')) ->
  (let w := p2_sub q p in Finite (v2_dot w w) /\ min_subnormal A <= unit_roundoff A * real_of (v2_dot w w)) ->
  Eqs (p2_distance p q) (sabs (ssub (coord2 q d) (coord2 p d))).
Proof. exact C87_axis_distance_2d_pf. Qed.
Print Assumptions C87_axis_distance_2d.
Theorem C87_axis_distance_3d : forall (A : arith) (p q : Point3 (num A)) (d : Dimension3), (forall e, Finite (ssub (coord3 q e) (coord3 p e))) ->
  (forall d', d' <> d -> Eqs (coord3 q d') (coord3 p d')) ->
  (let w := p3_sub q p in Finite (v3_dot w w) /\ min_subnormal A <= unit_roundoff A * real_of (v3_dot w w)) ->
  Eqs (p3_distance p q) (sabs (ssub (coord3 q d) (coord3 p d))).
Proof. exact C87_axis_distance_3d_pf. Qed.
Print Assumptions C87_axis_distance_3d.
(** without the range condition both fail: a vector whose squared length is subnormal can be longer than its length *)
Theorem C87_range_needed_2d : exists v : Vector2 (num A32), VFinite2 v /\ Finite (v2_dot v v) /\ Lt szero (v2_length v) /\
  (forall d', d' <> D2X -> Eqs (vcoord2 v d') szero) /\
  Lt (v2_length v) (sabs (vcoord2 v D2X)) /\ Lt sone (vcoord2 (v2_normalize v) D2X).
Proof. exact C87_range_needed_2d_pf. Qed.
Print Assumptions C87_range_needed_2d.
Theorem C87_range_needed_3d : exists v : Vector3 (num A32), VFinite3 v /\ Finite (v3_dot v v) /\ Lt szero (v3_length v) /\
  (forall d', d' <> D3X -> Eqs (vcoord3 v d') szero) /\
  Lt (v3_length v) (sabs (vcoord3 v D3X)) /\ Lt sone (vcoord3 (v3_normalize v) D3X).
Proof. exact C87_range_needed_3d_pf. Qed.
Print Assumptions C87_range_needed_3d.
(* the hypotheses are met: a vector with inexact length, one along an axis with inexact square *)
Example C87_example : let v := mkVector3 (d64 1 0) (nd64 3 0) (d64 3602879701896397 (-55)) : Vector3 (num A64) in let w := mkVector3 (d64 0 0) (nd64 3602879701896397 (-50)) (nd64 0 0) : Vector3 (num A64) in
  VFinite3 v /\ Finite (v3_dot v v) /\ min_subnormal A64 <= unit_roundoff A64 * real_of (v3_dot v v) /\ Lt szero (v3_length v) /\
  (forall d', d' <> D3Y -> Eqs (vcoord3 w d') szero) /\ Finite (v3_dot w w) /\ min_subnormal A64 <= unit_roundoff A64 * real_of (v3_dot w w) /\ Lt (vcoord3 w D3Y) szero.
Proof.
  cbv zeta. conjs; try (apply dot_ge_1_ok; vm_compute; reflexivity); try (intros []; intros; try congruence); vm_compute; reflexivity.
Qed.
