(** Theorems: C85 (accuracy of the measures of a box in floating point).
    [A] ranges over f32 and f64 on every platform, and exact reals (where unit_roundoff and min_subnormal are 0). *)
From Coq Require Import Bool NArith ZArith Reals List Lra Lia.
From Verif Require Import Scalar Types Vector2 Vector3 Point2 Point3 Ray BoundingBox2 BoundingBox3 Transform2 Transform3 Float
  XReal Arith SpecOrder SpecStruct SpecFloat SpecReal SpecErr ExVals FloatMeas.
Import ListNotations.
Local Open Scope R_scope.
(** * C85: the computed extents, areas and volumes *)
Theorem C85_extent_accurate_2d : forall (A : arith) (b : BoundingBox2 (num A)) (d : Dimension2), Finite (bb2_extent b d) ->
  let w := real_of (coord2 (bb2_max b) d) - real_of (coord2 (bb2_min b) d) in
  Rabs (real_of (bb2_extent b d) - w) <= unit_roundoff A * Rabs w.
Proof. exact C85_extent_accurate_2d_pf. Qed.
Print Assumptions C85_extent_accurate_2d.
Theorem C85_extent_accurate_3d : forall (A : arith) (b : BoundingBox3 (num A)) (d : Dimension3), Finite (bb3_extent b d) ->
  let w := real_of (coord3 (bb3_max b) d) - real_of (coord3 (bb3_min b) d) in
  Rabs (real_of (bb3_extent b d) - w) <= unit_roundoff A * Rabs w.
Proof. exact C85_extent_accurate_3d_pf. Qed.
Print Assumptions C85_extent_accurate_3d.
Theorem C85_area_accurate_2d : forall (A : arith) (b : BoundingBox2 (num A)), Finite (bb2_area b) ->
  let w := fun d => real_of (coord2 (bb2_max b) d) - real_of (coord2 (bb2_min b) d) in
  Rabs (real_of (bb2_area b) - w D2X * w D2Y) <= ((1 + unit_roundoff A) ^ 3 - 1) * Rabs (w D2X * w D2Y) + min_subnormal A.
Proof. exact C85_area_accurate_2d_pf. Qed.
Print Assumptions C85_area_accurate_2d.
Theorem C85_volume_accurate_3d : forall (A : arith) (b : BoundingBox3 (num A)), Finite (bb3_volume b) ->
  let w := fun d => real_of (coord3 (bb3_max b) d) - real_of (coord3 (bb3_min b) d) in
  Rabs (real_of (bb3_volume b) - w D3X * w D3Y * w D3Z) <= ((1 + unit_roundoff A) ^ 5 - 1) * Rabs (w D3X * w D3Y * w D3Z) + min_subnormal A * (Rabs (w D3Z) + 1).
Proof. exact C85_volume_accurate_3d_pf. Qed.
Print Assumptions C85_volume_accurate_3d.
Theorem C85_surface_area_accurate_3d : forall (A : arith) (b : BoundingBox3 (num A)), Finite (bb3_surface_area b) ->
  let w := fun d => real_of (coord3 (bb3_max b) d) - real_of (coord3 (bb3_min b) d) in
  let S := Rabs (w D3X * w D3Y) + Rabs (w D3X * w D3Z) + Rabs (w D3Y * w D3Z) in
  Rabs (real_of (bb3_surface_area b) - 2 * (w D3X * w D3Y + w D3X * w D3Z + w D3Y * w D3Z)) <= ((1 + unit_roundoff A) ^ 6 - 1) * (2 * S) + 7 * min_subnormal A.
Proof. exact C85_surface_area_accurate_3d_pf. Qed.
Print Assumptions C85_surface_area_accurate_3d.
(** * C85: the computed centre *)
Theorem C85_center_accurate_2d : forall (A : arith) (b : BoundingBox2 (num A)) (d : Dimension2), Finite (coord2 (bb2_center b) d) ->
  let lo := real_of (coord2 (bb2_min b) d) in let hi := real_of (coord2 (bb2_max b) d) in
  Rabs (real_of (coord2 (bb2_center b) d) - (lo + hi) / 2) <= unit_roundoff A * Rabs ((lo + hi) / 2) + (101 / 100) * unit_roundoff A * Rabs (hi - lo) + min_subnormal A.
Proof. exact C85_center_accurate_2d_pf. Qed.
Print Assumptions C85_center_accurate_2d.
Theorem C85_center_accurate_3d : forall (A : arith) (b : BoundingBox3 (num A)) (d : Dimension3), Finite (coord3 (bb3_center b) d) ->
  let lo := real_of (coord3 (bb3_min b) d) in let hi := real_of (coord3 (bb3_max b) d) in
  Rabs (real_of (coord3 (bb3_center b) d) - (lo + hi) / 2) <= unit_roundoff A * Rabs ((lo + hi) / 2) + (101 / 100) * unit_roundoff A * Rabs (hi - lo) + min_subnormal A.
Proof. exact C85_center_accurate_3d_pf. Qed.
Print Assumptions C85_center_accurate_3d.
(* the hypotheses are met by a box in f64 whose measures are not exact *)
Example C85_example : let b := mkBB3 (mkPoint3 (d64 3602879701896397 (-55)) (d64 1 0) (nd64 7 0)) (mkPoint3 (d64 5 0) (d64 1 60) (d64 11 0)) : BoundingBox3 (num A64) in
  Ordered3 b /\ (forall d, Finite (bb3_extent b d)) /\ Finite (bb3_volume b) /\ Finite (bb3_surface_area b) /\ Finite3 (bb3_center b) /\ seq (bb3_height b) (d64 1 60) = true.
Proof.
  cbv zeta. split; [intros []; vm_compute; reflexivity|]. split; [intros []; vm_compute; reflexivity|]. split; [vm_compute; reflexivity|]. split; [vm_compute; reflexivity|]. split; [intros []; vm_compute; reflexivity|]. vm_compute. reflexivity.
Qed.
