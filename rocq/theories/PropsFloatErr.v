(** Property theorems on the accuracy of floating-point results: C24, C54-C56, C59.
    [A] ranges over f32 and f64 on every platform, and exact reals (where unit_roundoff and min_subnormal are 0). *)
From Coq Require Import Bool NArith ZArith Reals List Lra Lia.
From Verif Require Import Scalar Types Vector2 Vector3 Point2 Point3 Ray BoundingBox2 BoundingBox3 Transform2 Transform3 Float
  XReal Arith SpecOrder SpecStruct SpecFloat SpecReal SpecErr ExVals FloatErr.
Import ListNotations.
Local Open Scope R_scope.
(** * C54: dot product *)
Theorem C54_dot_accurate_2d : forall (A : arith) (a b : Vector2 (num A)), Finite (v2_dot a b) ->
  Rabs (real_of (v2_dot a b) - Rdot2 (RV2 a) (RV2 b)) <=
  ((1 + unit_roundoff A) ^ 2 - 1) * Rdot2 (absV2 (RV2 a)) (absV2 (RV2 b)) + 2 * min_subnormal A.
Proof. exact C54_dot_accurate_2d_pf. Qed.
Print Assumptions C54_dot_accurate_2d.
Theorem C54_dot_accurate_3d : forall (A : arith) (a b : Vector3 (num A)), Finite (v3_dot a b) ->
  Rabs (real_of (v3_dot a b) - Rdot3 (RV3 a) (RV3 b)) <=
  ((1 + unit_roundoff A) ^ 3 - 1) * Rdot3 (absV3 (RV3 a)) (absV3 (RV3 b)) + 3 * min_subnormal A.
Proof. exact C54_dot_accurate_3d_pf. Qed.
Print Assumptions C54_dot_accurate_3d.
(** * C59: cross product, ray evaluation, matrix product *)
Theorem C59_cross_accurate : forall (A : arith) (a b : Vector3 (num A)) (d : Dimension3), Finite (vcoord3 (v3_cross a b) d) ->
  let x i := vcoord3 (RV3 a) i in let y i := vcoord3 (RV3 b) i in
  let (i, j) := match d with D3X => (D3Y, D3Z) | D3Y => (D3Z, D3X) | D3Z => (D3X, D3Y) end in
  Rabs (real_of (vcoord3 (v3_cross a b) d) - (x i * y j - x j * y i)) <=
  ((1 + unit_roundoff A) ^ 2 - 1) * (Rabs (x i) * Rabs (y j) + Rabs (x j) * Rabs (y i)) + 2 * min_subnormal A.
Proof. exact C59_cross_accurate_pf. Qed.
Print Assumptions C59_cross_accurate.
Theorem C59_ray_at_accurate_2d : forall (A : arith) (r : Ray2 (num A)) (s : num A) (d : Dimension2), Finite (coord2 (r2_at r s) d) ->
  let o := coord2 (RP2 (r2_origin r)) d in let v := vcoord2 (RV2 (r2_direction r)) d in
  Rabs (real_of (coord2 (r2_at r s) d) - (o + v * real_of s)) <=
  ((1 + unit_roundoff A) ^ 2 - 1) * (Rabs o + Rabs v * Rabs (real_of s)) + min_subnormal A.
Proof. exact C59_ray_at_accurate_2d_pf. Qed.
Print Assumptions C59_ray_at_accurate_2d.
Theorem C59_ray_at_accurate_3d : forall (A : arith) (r : Ray3 (num A)) (s : num A) (d : Dimension3), Finite (coord3 (r3_at r s) d) ->
  let o := coord3 (RP3 (r3_origin r)) d in let v := vcoord3 (RV3 (r3_direction r)) d in
  Rabs (real_of (coord3 (r3_at r s) d) - (o + v * real_of s)) <=
  ((1 + unit_roundoff A) ^ 2 - 1) * (Rabs o + Rabs v * Rabs (real_of s)) + min_subnormal A.
Proof. exact C59_ray_at_accurate_3d_pf. Qed.
Print Assumptions C59_ray_at_accurate_3d.
Theorem C59_matrix_product_accurate_3x3 : forall (A : arith) (prof : profile) (a b : Matrix3x3 (num A)) (r c : N) (x : num A), (r < 3)%N -> (c < 3)%N ->
  m3_get prof (m3_mul a b) r c = Ret x -> Finite x ->
  let P := ent3 (RM3 a) in let Q := ent3 (RM3 b) in
  Rabs (real_of x - mat_mul 3 P Q (N.to_nat r) (N.to_nat c)) <=
  ((1 + unit_roundoff A) ^ 3 - 1) * mat_mul 3 (mat_abs P) (mat_abs Q) (N.to_nat r) (N.to_nat c) + 3 * min_subnormal A.
Proof. exact C59_matrix_product_accurate_3x3_pf. Qed.
Print Assumptions C59_matrix_product_accurate_3x3.
Theorem C59_matrix_product_accurate_4x4 : forall (A : arith) (prof : profile) (a b : Matrix4x4 (num A)) (r c : N) (x : num A), (r < 4)%N -> (c < 4)%N ->
  m4_get prof (m4_mul a b) r c = Ret x -> Finite x ->
  let P := ent4 (RM4 a) in let Q := ent4 (RM4 b) in
  Rabs (real_of x - mat_mul 4 P Q (N.to_nat r) (N.to_nat c)) <=
  ((1 + unit_roundoff A) ^ 4 - 1) * mat_mul 4 (mat_abs P) (mat_abs Q) (N.to_nat r) (N.to_nat c) + 4 * min_subnormal A.
Proof. exact C59_matrix_product_accurate_4x4_pf. Qed.
Print Assumptions C59_matrix_product_accurate_4x4.
(** * C56: matrix times vector, matrix times point *)
Theorem C56_matrix_vector_accurate_2d : forall (A : arith) (m : Matrix3x3 (num A)) (v : Vector2 (num A)) (d : Dimension2), Finite (vcoord2 (m3_mul_vector m v) d) ->
  let M := ent3 (RM3 m) in
  Rabs (real_of (vcoord2 (m3_mul_vector m v) d) - mat_apply 3 M (dir2 (RV2 v)) (dim2_index d)) <=
  ((1 + unit_roundoff A) ^ 2 - 1) * mat_apply 3 (mat_abs M) (dir2 (absV2 (RV2 v))) (dim2_index d) + 2 * min_subnormal A.
Proof. exact C56_matrix_vector_accurate_2d_pf. Qed.
Print Assumptions C56_matrix_vector_accurate_2d.
Theorem C56_matrix_vector_accurate_3d : forall (A : arith) (m : Matrix4x4 (num A)) (v : Vector3 (num A)) (d : Dimension3), Finite (vcoord3 (m4_mul_vector m v) d) ->
  let M := ent4 (RM4 m) in
  Rabs (real_of (vcoord3 (m4_mul_vector m v) d) - mat_apply 4 M (dir3 (RV3 v)) (dim3_index d)) <=
  ((1 + unit_roundoff A) ^ 3 - 1) * mat_apply 4 (mat_abs M) (dir3 (absV3 (RV3 v))) (dim3_index d) + 3 * min_subnormal A.
Proof. exact C56_matrix_vector_accurate_3d_pf. Qed.
Print Assumptions C56_matrix_vector_accurate_3d.
Theorem C56_matrix_point_accurate_2d : forall (A : arith) (m : Matrix3x3 (num A)) (p : Point2 (num A)) (d : Dimension2), Affine3x3 m -> Finite2 p ->
  Finite (coord2 (m3_mul_point m p) d) ->
  let M := ent3 (RM3 m) in
  Rabs (real_of (coord2 (m3_mul_point m p) d) - mat_apply 3 M (hom2 (RP2 p)) (dim2_index d)) <=
  ((1 + unit_roundoff A) ^ 3 - 1) * mat_apply 3 (mat_abs M) (hom2 (absP2 (RP2 p))) (dim2_index d) + 2 * min_subnormal A.
Proof. exact C56_matrix_point_accurate_2d_pf. Qed.
Print Assumptions C56_matrix_point_accurate_2d.
Theorem C56_matrix_point_accurate_3d : forall (A : arith) (m : Matrix4x4 (num A)) (p : Point3 (num A)) (d : Dimension3), Affine4x4 m -> Finite3 p ->
  Finite (coord3 (m4_mul_point m p) d) ->
  let M := ent4 (RM4 m) in
  Rabs (real_of (coord3 (m4_mul_point m p) d) - mat_apply 4 M (hom3 (RP3 p)) (dim3_index d)) <=
  ((1 + unit_roundoff A) ^ 4 - 1) * mat_apply 4 (mat_abs M) (hom3 (absP3 (RP3 p))) (dim3_index d) + 3 * min_subnormal A.
Proof. exact C56_matrix_point_accurate_3d_pf. Qed.
Print Assumptions C56_matrix_point_accurate_3d.
(** * C55: length and distance *)
Theorem C55_length_accurate_2d : forall (A : arith) (v : Vector2 (num A)), Finite (v2_dot v v) -> min_subnormal A <= unit_roundoff A * real_of (v2_dot v v) ->
  Finite (v2_length v) /\ Rabs (real_of (v2_length v) - Rnorm2 (RV2 v)) <= 5 * unit_roundoff A * Rnorm2 (RV2 v).
Proof. exact C55_length_accurate_2d_pf. Qed.
Print Assumptions C55_length_accurate_2d.
Theorem C55_length_accurate_3d : forall (A : arith) (v : Vector3 (num A)), Finite (v3_dot v v) -> min_subnormal A <= unit_roundoff A * real_of (v3_dot v v) ->
  Finite (v3_length v) /\ Rabs (real_of (v3_length v) - Rnorm3 (RV3 v)) <= 5 * unit_roundoff A * Rnorm3 (RV3 v).
Proof. exact C55_length_accurate_3d_pf. Qed.
Print Assumptions C55_length_accurate_3d.
Theorem C55_distance_accurate_2d : forall (A : arith) (p q : Point2 (num A)), let w := p2_sub q p in
  Finite (v2_dot w w) -> min_subnormal A <= unit_roundoff A * real_of (v2_dot w w) ->
  Finite (p2_distance p q) /\ Rabs (real_of (p2_distance p q) - Rdist2 (RP2 p) (RP2 q)) <= 7 * unit_roundoff A * Rdist2 (RP2 p) (RP2 q).
Proof. exact C55_distance_accurate_2d_pf. Qed.
Print Assumptions C55_distance_accurate_2d.
Theorem C55_distance_accurate_3d : forall (A : arith) (p q : Point3 (num A)), let w := p3_sub q p in
  Finite (v3_dot w w) -> min_subnormal A <= unit_roundoff A * real_of (v3_dot w w) ->
  Finite (p3_distance p q) /\ Rabs (real_of (p3_distance p q) - Rdist3 (RP3 p) (RP3 q)) <= 7 * unit_roundoff A * Rdist3 (RP3 p) (RP3 q).
Proof. exact C55_distance_accurate_3d_pf. Qed.
Print Assumptions C55_distance_accurate_3d.
(** * C24: normalize *)
Theorem C24_normalize_accurate_2d : forall (A : arith) (v : Vector2 (num A)), Finite (v2_dot v v) -> min_subnormal A <= unit_roundoff A * real_of (v2_dot v v) ->
  0 < Rnorm2 (RV2 v) ->
  VFinite2 (v2_normalize v) /\
  (forall d, let n := vcoord2 (RV2 v) d / Rnorm2 (RV2 v) in
     Rabs (vcoord2 (RV2 (v2_normalize v)) d - n) <= 7 * unit_roundoff A * Rabs n + min_subnormal A) /\
  Rabs (Rnorm2 (RV2 (v2_normalize v)) - 1) <= 8 * unit_roundoff A.
Proof. exact C24_normalize_accurate_2d_pf. Qed.
Print Assumptions C24_normalize_accurate_2d.
Theorem C24_normalize_accurate_3d : forall (A : arith) (v : Vector3 (num A)), Finite (v3_dot v v) -> min_subnormal A <= unit_roundoff A * real_of (v3_dot v v) ->
  0 < Rnorm3 (RV3 v) ->
  VFinite3 (v3_normalize v) /\
  (forall d, let n := vcoord3 (RV3 v) d / Rnorm3 (RV3 v) in
     Rabs (vcoord3 (RV3 (v3_normalize v)) d - n) <= 7 * unit_roundoff A * Rabs n + min_subnormal A) /\
  Rabs (Rnorm3 (RV3 (v3_normalize v)) - 1) <= 8 * unit_roundoff A.
Proof. exact C24_normalize_accurate_3d_pf. Qed.
Print Assumptions C24_normalize_accurate_3d.
(* the range hypothesis holds for every vector of length at least 1 whose squared length does not overflow, here (3, 4) *)
Example C24_example : let v := mkVector2 (d64 3 0) (d64 4 0) in
  Finite (v2_dot v v) /\ min_subnormal A64 <= unit_roundoff A64 * real_of (v2_dot v v) /\ 0 < Rnorm2 (RV2 v) /\
  Eqs (v2_length v) (d64 5 0) /\ Eqs (v2_dot v v) (d64 25 0).
Proof.
  cbv zeta. split; [vm_compute; reflexivity|]. split; [apply dot_ge_1_ok; vm_compute; reflexivity|]. split; [|split; vm_compute; reflexivity].
  destruct (real_of_1 (A := A64)) as [F V]. apply Rlt_le_trans with 1; [lra|]. apply Rle_trans with (Rabs (vcoord2 (RV2 (mkVector2 (d64 3 0) (d64 4 0))) D2X)); [|apply comp_le_norm2].
  eapply Rle_trans; [|apply Rle_abs]. rewrite <- V. apply Le_real; vm_compute; reflexivity.
Qed.
(* The full property ("every finite non-zero vector") is false: the squared length underflows or overflows. *)
Definition tiny3 : Vector3 (num A64) := mkVector3 (d64 1 (-600)) (d64 1 (-600)) (d64 0 0).
Definition huge3 : Vector3 (num A64) := mkVector3 (d64 1 600) (d64 0 0) (d64 1 600).
Theorem C24_tiny_vector_refuted : VFinite3 tiny3 /\ Lt szero (v3x tiny3) /\
  Eqs (v3_length tiny3) szero /\ Eqs (v3x (v3_normalize tiny3)) sinf /\ snan (v3z (v3_normalize tiny3)) = true.
Proof. repeat apply conj; try (intros []); vm_compute; reflexivity. Qed.
Print Assumptions C24_tiny_vector_refuted.
Theorem C24_huge_vector_refuted : VFinite3 huge3 /\ Lt szero (v3x huge3) /\
  Eqs (v3_length huge3) sinf /\ (forall d, Eqs (vcoord3 (v3_normalize huge3) d) szero).
Proof. repeat apply conj; try (intros []); vm_compute; reflexivity. Qed.
Print Assumptions C24_huge_vector_refuted.
(* a squared length that is rounded: 1 + 1 + 2^-106 gives 2 *)
Example C54_example : let a := mkVector3 (d64 1 0) (d64 1 0) (d64 1 (-53)) in Finite (v3_dot a a) /\ Finite (v3x (v3_cross a (mkVector3 (d64 3 0) (d64 2 0) (d64 1 0)))) /\
  Eqs (v3_dot a a) (d64 2 0).
Proof. repeat apply conj; vm_compute; reflexivity. Qed.
Example C56_example : let m := m4_translate (mkVector3 (d64 1 0) (d64 2 0) (d64 3 0)) in let p := ptA3 in
  Affine4x4 m /\ Finite3 p /\ Finite3 (m4_mul_point m p) /\ Affine3x3 (m3_scale (d64 3 0) (d64 2 0) : Matrix3x3 (num A64)).
Proof. repeat apply conj; try (intros []); vm_compute; reflexivity. Qed.
