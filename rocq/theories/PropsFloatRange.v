(** Theorems: C89 (magnitudes without overflow; a safe range).
    [A] ranges over f32 and f64 on every platform, and exact reals (where nothing overflows). *)
From Coq Require Import Bool NArith ZArith Reals List Lra Lia.
From Flocq Require Import Core.Zaux Core.Raux.
From Verif Require Import Scalar Types Vector2 Vector3 Point2 Point3 Ray BoundingBox2 BoundingBox3 Transform2 Transform3 Float
  XReal Arith SpecOrder SpecFloat SpecReal SpecErr SpecRange ExVals FloatX FloatLaws FloatInv FloatErr FloatRange.
Import ListNotations.
Local Open Scope R_scope.
(** sums and differences *)
Theorem C89_sums_2d : forall (A : arith) (k : Z) (p q : Point2 (num A)) (v w : Vector2 (num A)), (0 <= k)%Z -> PMag2 k p -> PMag2 k q -> VMag2 k v -> VMag2 k w -> fits A (k + 1) ->
  PMag2 (k + 1) (p2_add p v) /\ PMag2 (k + 1) (p2_sub_v p v) /\ VMag2 (k + 1) (p2_sub p q) /\ VMag2 (k + 1) (v2_add v w) /\ VMag2 (k + 1) (v2_sub v w).
Proof. exact C89_sums_2d_pf. Qed.
Print Assumptions C89_sums_2d.
Theorem C89_sums_3d : forall (A : arith) (k : Z) (p q : Point3 (num A)) (v w : Vector3 (num A)), (0 <= k)%Z -> PMag3 k p -> PMag3 k q -> VMag3 k v -> VMag3 k w -> fits A (k + 1) ->
  PMag3 (k + 1) (p3_add p v) /\ PMag3 (k + 1) (p3_sub_v p v) /\ VMag3 (k + 1) (p3_sub p q) /\ VMag3 (k + 1) (v3_add v w) /\ VMag3 (k + 1) (v3_sub v w).
Proof. exact C89_sums_3d_pf. Qed.
Print Assumptions C89_sums_3d.
(** dot product, length, distance *)
Theorem C89_dot_2d : forall (A : arith) (i k : Z) (v w : Vector2 (num A)), (0 <= i)%Z -> (0 <= k)%Z -> VMag2 i v -> VMag2 k w -> fits A (i + k + 2 - 1) -> Mag (i + k + 2 - 1) (v2_dot v w).
Proof. exact C89_dot_2d_pf. Qed.
Print Assumptions C89_dot_2d.
Theorem C89_dot_3d : forall (A : arith) (i k : Z) (v w : Vector3 (num A)), (0 <= i)%Z -> (0 <= k)%Z -> VMag3 i v -> VMag3 k w -> fits A (i + k + 3 - 1) -> Mag (i + k + 3 - 1) (v3_dot v w).
Proof. exact C89_dot_3d_pf. Qed.
Print Assumptions C89_dot_3d.
Theorem C89_length_2d : forall (A : arith) (k : Z) (v : Vector2 (num A)), (0 <= k)%Z -> VMag2 k v -> fits A (2 * k + 2 - 1) -> Mag (k + 1) (v2_length v).
Proof. exact C89_length_2d_pf. Qed.
Print Assumptions C89_length_2d.
Theorem C89_length_3d : forall (A : arith) (k : Z) (v : Vector3 (num A)), (0 <= k)%Z -> VMag3 k v -> fits A (2 * k + 3 - 1) -> Mag (k + 1) (v3_length v).
Proof. exact C89_length_3d_pf. Qed.
Print Assumptions C89_length_3d.
Theorem C89_distance_2d : forall (A : arith) (k : Z) (p q : Point2 (num A)), (0 <= k)%Z -> PMag2 k p -> PMag2 k q -> fits A (2 * k + 3) -> Mag (k + 2) (p2_distance p q).
Proof. exact C89_distance_2d_pf. Qed.
Print Assumptions C89_distance_2d.
Theorem C89_distance_3d : forall (A : arith) (k : Z) (p q : Point3 (num A)), (0 <= k)%Z -> PMag3 k p -> PMag3 k q -> fits A (2 * k + 4) -> Mag (k + 2) (p3_distance p q).
Proof. exact C89_distance_3d_pf. Qed.
Print Assumptions C89_distance_3d.
Theorem C89_cross : forall (A : arith) (i k : Z) (v w : Vector3 (num A)), (0 <= i)%Z -> (0 <= k)%Z -> VMag3 i v -> VMag3 k w -> fits A (i + k + 1) -> VMag3 (i + k + 1) (v3_cross v w).
Proof. exact C89_cross_pf. Qed.
Print Assumptions C89_cross.
(** points along a ray *)
Theorem C89_ray_at_2d : forall (A : arith) (i k : Z) (r : Ray2 (num A)) (t : num A), (0 <= i)%Z -> (0 <= k)%Z -> PMag2 (i + k) (r2_origin r) -> VMag2 i (r2_direction r) -> Mag k t -> fits A (i + k + 1) ->
  PMag2 (i + k + 1) (r2_at r t).
Proof. exact C89_ray_at_2d_pf. Qed.
Print Assumptions C89_ray_at_2d.
Theorem C89_ray_at_3d : forall (A : arith) (i k : Z) (r : Ray3 (num A)) (t : num A), (0 <= i)%Z -> (0 <= k)%Z -> PMag3 (i + k) (r3_origin r) -> VMag3 i (r3_direction r) -> Mag k t -> fits A (i + k + 1) ->
  PMag3 (i + k + 1) (r3_at r t).
Proof. exact C89_ray_at_3d_pf. Qed.
Print Assumptions C89_ray_at_3d.
(** matrices *)
Theorem C89_matrix_vector_2d : forall (A : arith) (i k : Z) (m : Matrix3x3 (num A)) (v : Vector2 (num A)), (0 <= i)%Z -> (0 <= k)%Z -> MMag3 i m -> VMag2 k v -> fits A (i + k + 2 - 1) -> VMag2 (i + k + 2 - 1) (m3_mul_vector m v).
Proof. exact C89_matrix_vector_2d_pf. Qed.
Print Assumptions C89_matrix_vector_2d.
Theorem C89_matrix_vector_3d : forall (A : arith) (i k : Z) (m : Matrix4x4 (num A)) (v : Vector3 (num A)), (0 <= i)%Z -> (0 <= k)%Z -> MMag4 i m -> VMag3 k v -> fits A (i + k + 3 - 1) -> VMag3 (i + k + 3 - 1) (m4_mul_vector m v).
Proof. exact C89_matrix_vector_3d_pf. Qed.
Print Assumptions C89_matrix_vector_3d.
Theorem C89_affine_point_2d : forall (A : arith) (i k : Z) (m : Matrix3x3 (num A)) (p : Point2 (num A)), Affine3x3 m -> (0 <= i)%Z -> (0 <= k)%Z -> MMag3 i m -> PMag2 k p -> fits A (i + k + 2) -> PMag2 (i + k + 2) (m3_mul_point m p).
Proof. exact C89_affine_point_2d_pf. Qed.
Print Assumptions C89_affine_point_2d.
Theorem C89_affine_point_3d : forall (A : arith) (i k : Z) (m : Matrix4x4 (num A)) (p : Point3 (num A)), Affine4x4 m -> (0 <= i)%Z -> (0 <= k)%Z -> MMag4 i m -> PMag3 k p -> fits A (i + k + 3) -> PMag3 (i + k + 3) (m4_mul_point m p).
Proof. exact C89_affine_point_3d_pf. Qed.
Print Assumptions C89_affine_point_3d.
Theorem C89_matrix_product_2d : forall (A : arith) (i k : Z) (a b : Matrix3x3 (num A)), (0 <= i)%Z -> (0 <= k)%Z -> MMag3 i a -> MMag3 k b -> fits A (i + k + 2) -> MMag3 (i + k + 2) (m3_mul a b).
Proof. exact C89_matrix_product_2d_pf. Qed.
Print Assumptions C89_matrix_product_2d.
Theorem C89_matrix_product_3d : forall (A : arith) (i k : Z) (a b : Matrix4x4 (num A)), (0 <= i)%Z -> (0 <= k)%Z -> MMag4 i a -> MMag4 k b -> fits A (i + k + 3) -> MMag4 (i + k + 3) (m4_mul a b).
Proof. exact C89_matrix_product_3d_pf. Qed.
Print Assumptions C89_matrix_product_3d.
(** boxes *)
Theorem C89_box_measures_2d : forall (A : arith) (k : Z) (b : BoundingBox2 (num A)), (0 <= k)%Z -> PMag2 k (bb2_min b) -> PMag2 k (bb2_max b) -> fits A (2 * k + 2) ->
  (forall d, Mag (k + 1) (bb2_extent b d)) /\ PMag2 (k + 2) (bb2_center b) /\ Mag (2 * k + 2) (bb2_area b).
Proof. exact C89_box_measures_2d_pf. Qed.
Print Assumptions C89_box_measures_2d.
Theorem C89_box_measures_3d : forall (A : arith) (k : Z) (b : BoundingBox3 (num A)), (0 <= k)%Z -> PMag3 k (bb3_min b) -> PMag3 k (bb3_max b) -> fits A (3 * k + 5) ->
  (forall d, Mag (k + 1) (bb3_extent b d)) /\ PMag3 (k + 2) (bb3_center b) /\ Mag (2 * k + 5) (bb3_surface_area b) /\ Mag (3 * k + 3) (bb3_volume b).
Proof. exact C89_box_measures_3d_pf. Qed.
Print Assumptions C89_box_measures_3d.
(** the safe range *)
Theorem C89_safe_vector_2d : forall (A : arith) (v : Vector2 (num A)), (forall d, NotTooBig (vcoord2 v d)) -> (exists d, NotTooSmall (A:=A) (real_of (vcoord2 v d))) ->
  Finite (v2_dot v v) /\ Finite (v2_length v) /\ Lt szero (v2_length v) /\
  Rabs (real_of (v2_length v) - Rnorm2 (RV2 v)) <= 5 * unit_roundoff A * Rnorm2 (RV2 v) /\
  VFinite2 (v2_normalize v) /\
  (forall d, let n := vcoord2 (RV2 v) d / Rnorm2 (RV2 v) in Rabs (vcoord2 (RV2 (v2_normalize v)) d - n) <= 7 * unit_roundoff A * Rabs n + min_subnormal A) /\
  Rabs (Rnorm2 (RV2 (v2_normalize v)) - 1) <= 8 * unit_roundoff A.
Proof. exact C89_safe_vector_2d_pf. Qed.
Print Assumptions C89_safe_vector_2d.
Theorem C89_safe_vector_3d : forall (A : arith) (v : Vector3 (num A)), (forall d, NotTooBig (vcoord3 v d)) -> (exists d, NotTooSmall (A:=A) (real_of (vcoord3 v d))) ->
  Finite (v3_dot v v) /\ Finite (v3_length v) /\ Lt szero (v3_length v) /\
  Rabs (real_of (v3_length v) - Rnorm3 (RV3 v)) <= 5 * unit_roundoff A * Rnorm3 (RV3 v) /\
  VFinite3 (v3_normalize v) /\
  (forall d, let n := vcoord3 (RV3 v) d / Rnorm3 (RV3 v) in Rabs (vcoord3 (RV3 (v3_normalize v)) d - n) <= 7 * unit_roundoff A * Rabs n + min_subnormal A) /\
  Rabs (Rnorm3 (RV3 (v3_normalize v)) - 1) <= 8 * unit_roundoff A.
Proof. exact C89_safe_vector_3d_pf. Qed.
Print Assumptions C89_safe_vector_3d.
Theorem C89_safe_distance_2d : forall (A : arith) (p q : Point2 (num A)), (forall d, NotTooBig (coord2 p d)) -> (forall d, NotTooBig (coord2 q d)) ->
  (exists d, NotTooSmall (A:=A) (real_of (coord2 q d) - real_of (coord2 p d))) ->
  Finite (p2_distance p q) /\ Rabs (real_of (p2_distance p q) - Rdist2 (RP2 p) (RP2 q)) <= 7 * unit_roundoff A * Rdist2 (RP2 p) (RP2 q).
Proof. exact C89_safe_distance_2d_pf. Qed.
Print Assumptions C89_safe_distance_2d.
Theorem C89_safe_distance_3d : forall (A : arith) (p q : Point3 (num A)), (forall d, NotTooBig (coord3 p d)) -> (forall d, NotTooBig (coord3 q d)) ->
  (exists d, NotTooSmall (A:=A) (real_of (coord3 q d) - real_of (coord3 p d))) ->
  Finite (p3_distance p q) /\ Rabs (real_of (p3_distance p q) - Rdist3 (RP3 p) (RP3 q)) <= 7 * unit_roundoff A * Rdist3 (RP3 p) (RP3 q).
Proof. exact C89_safe_distance_3d_pf. Qed.
Print Assumptions C89_safe_distance_3d.
(** outside the safe range the conclusions fail, in f32 already at 2^64 and 2^-75 *)
Theorem C89_range_needed : let big := mkVector3 (d32 1 64) (d32 0 0) (d32 1 0) : Vector3 (num A32) in let small := mkVector3 (d32 1 (-75)) (d32 0 0) (d32 0 0) : Vector3 (num A32) in
  VFinite3 big /\ Eqs (v3_dot big big) sinf /\ Eqs (v3_length big) sinf /\ Eqs (vcoord3 (v3_normalize big) D3X) szero /\
  VFinite3 small /\ Lt szero (vcoord3 small D3X) /\ Eqs (v3_length small) szero /\ Eqs (vcoord3 (v3_normalize small) D3X) sinf.
Proof. exact C89_range_needed_pf. Qed.
Print Assumptions C89_range_needed.
(* the hypotheses are met: an affine matrix and points, vectors with integer coordinates; the bound of the product is attained *)
Ltac lit := apply lit_mag; [vm_compute; reflexivity | vm_compute; reflexivity | lia | vm_compute; congruence].
Example C89_example : let v := mkVector3 (d64 3 0) (nd64 4 0) (d64 1 0) : Vector3 (num A64) in let p := mkPoint3 (nd64 8 0) (d64 0 0) (d64 5 0) : Point3 (num A64) in
  let m := mkM4 (d64 2 0) (nd64 1 0) (d64 0 0) (d64 4 0) (d64 0 0) (d64 1 0) (d64 3 0) (d64 2 0) (d64 0 0) (d64 0 0) (nd64 1 0) (d64 1 0) (d64 0 0) (d64 0 0) (d64 0 0) (d64 1 0) : Matrix4x4 (num A64) in
  VMag3 2 v /\ PMag3 3 p /\ Affine4x4 m /\ MMag4 2 m /\ fits A64 (2 + 3 + 3) /\ (forall d, NotTooBig (vcoord3 v d)) /\ (exists d, NotTooSmall (A:=A64) (real_of (vcoord3 v d))).
Proof.
  cbv zeta. split; [intros []; lit|]. split; [intros []; lit|]. split; [repeat split; vm_compute; reflexivity|]. split; [unfold MMag4; cbn [m4_0 m4_1 m4_2 m4_3 m4_4 m4_5 m4_6 m4_7 m4_8 m4_9 m4_10 m4_11 m4_12 m4_13 m4_14 m4_15]; repeat apply Forall_cons; try apply Forall_nil; lit|].
  split; [cbn; lia|]. split.
  - intros d. apply (Mag_le 2 510); [destruct d; lit | lia].
  - exists D3X. cbn [vcoord3 v3x]. unfold NotTooSmall, A64, d64. rewrite real_flit by (vm_compute; reflexivity). rewrite Rabs_pos_eq by lra. apply Rle_trans with (bpow radix2 0); [apply bpow_le; cbn; lia | cbn; lra].
Qed.
