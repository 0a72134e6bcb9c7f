(** Theorems: C73 (coordinates on a grid: integers, halves, ...: floating point is exact).  f32 and f64, every platform. *)
From Coq Require Import Bool NArith ZArith Reals List Lra Lia.
From Flocq Require Import Core.Zaux Core.Raux.
From Verif Require Import Scalar Types Vector2 Vector3 Point2 Point3 Ray BoundingBox2 BoundingBox3 Transform2 Transform3 Float
  XReal Arith SpecOrder SpecStruct SpecFloat SpecReal SpecBox SpecErr SpecGrid ExVals FloatInv FloatGrid.
Import ListNotations.
Local Open Scope R_scope.
(** ** C73: sums and differences *)
Theorem C73_sums_exact_2d : forall (f : format) (P : platform f) (e B : Z) (p q : Point2 (num (IEEE f P))) (v w : Vector2 (num (IEEE f P))), (-30 <= e <= 30)%Z -> (2 * B < 2 ^ prec f)%Z ->
  Pgrid2 e B p -> Pgrid2 e B q -> Vgrid2 e B v -> Vgrid2 e B w -> forall d,
  RealVal (coord2 (p2_add p v) d) (real_of (coord2 p d) + real_of (vcoord2 v d)) /\
  RealVal (coord2 (p2_sub_v p v) d) (real_of (coord2 p d) - real_of (vcoord2 v d)) /\
  RealVal (vcoord2 (p2_sub p q) d) (real_of (coord2 p d) - real_of (coord2 q d)) /\
  RealVal (vcoord2 (v2_add v w) d) (real_of (vcoord2 v d) + real_of (vcoord2 w d)) /\
  RealVal (vcoord2 (v2_sub v w) d) (real_of (vcoord2 v d) - real_of (vcoord2 w d)).
Proof. exact C73_sums_exact_2d_pf. Qed.
Print Assumptions C73_sums_exact_2d.
Theorem C73_sums_exact_3d : forall (f : format) (P : platform f) (e B : Z) (p q : Point3 (num (IEEE f P))) (v w : Vector3 (num (IEEE f P))), (-30 <= e <= 30)%Z -> (2 * B < 2 ^ prec f)%Z ->
  Pgrid3 e B p -> Pgrid3 e B q -> Vgrid3 e B v -> Vgrid3 e B w -> forall d,
  RealVal (coord3 (p3_add p v) d) (real_of (coord3 p d) + real_of (vcoord3 v d)) /\
  RealVal (coord3 (p3_sub_v p v) d) (real_of (coord3 p d) - real_of (vcoord3 v d)) /\
  RealVal (vcoord3 (p3_sub p q) d) (real_of (coord3 p d) - real_of (coord3 q d)) /\
  RealVal (vcoord3 (v3_add v w) d) (real_of (vcoord3 v d) + real_of (vcoord3 w d)) /\
  RealVal (vcoord3 (v3_sub v w) d) (real_of (vcoord3 v d) - real_of (vcoord3 w d)).
Proof. exact C73_sums_exact_3d_pf. Qed.
Print Assumptions C73_sums_exact_3d.
(** ** so a point is recovered exactly from a difference *)
Theorem C73_difference_round_trip_2d : forall (f : format) (P : platform f) (e B : Z) (p q : Point2 (num (IEEE f P))), (-30 <= e <= 30)%Z -> (2 * B < 2 ^ prec f)%Z -> Pgrid2 e B p -> Pgrid2 e B q ->
  PEq2 (p2_add q (p2_sub p q)) p.
Proof. exact C73_difference_round_trip_2d_pf. Qed.
Print Assumptions C73_difference_round_trip_2d.
Theorem C73_difference_round_trip_3d : forall (f : format) (P : platform f) (e B : Z) (p q : Point3 (num (IEEE f P))), (-30 <= e <= 30)%Z -> (2 * B < 2 ^ prec f)%Z -> Pgrid3 e B p -> Pgrid3 e B q ->
  PEq3 (p3_add q (p3_sub p q)) p.
Proof. exact C73_difference_round_trip_3d_pf. Qed.
Print Assumptions C73_difference_round_trip_3d.
(** ** dot products, squared lengths and the comparisons of lengths and distances *)
Theorem C73_dot_exact_2d : forall (f : format) (P : platform f) (e B : Z) (v w : Vector2 (num (IEEE f P))), (-30 <= e <= 30)%Z -> (2 * (B * B) < 2 ^ prec f)%Z -> Vgrid2 e B v -> Vgrid2 e B w ->
  RealVal (v2_dot v w) (Rdot2 (RV2 v) (RV2 w)) /\
  (v2_is_shorter_than v w = true <-> Rnorm2 (RV2 v) < Rnorm2 (RV2 w)) /\ (v2_is_longer_than v w = true <-> Rnorm2 (RV2 v) > Rnorm2 (RV2 w)).
Proof. exact C73_dot_exact_2d_pf. Qed.
Print Assumptions C73_dot_exact_2d.
Theorem C73_dot_exact_3d : forall (f : format) (P : platform f) (e B : Z) (v w : Vector3 (num (IEEE f P))), (-30 <= e <= 30)%Z -> (3 * (B * B) < 2 ^ prec f)%Z -> Vgrid3 e B v -> Vgrid3 e B w ->
  RealVal (v3_dot v w) (Rdot3 (RV3 v) (RV3 w)) /\
  (v3_is_shorter_than v w = true <-> Rnorm3 (RV3 v) < Rnorm3 (RV3 w)) /\ (v3_is_longer_than v w = true <-> Rnorm3 (RV3 v) > Rnorm3 (RV3 w)).
Proof. exact C73_dot_exact_3d_pf. Qed.
Print Assumptions C73_dot_exact_3d.
Theorem C73_closer_exact_2d : forall (f : format) (P : platform f) (e B : Z) (p q r : Point2 (num (IEEE f P))), (-30 <= e <= 30)%Z -> (2 * (4 * (B * B)) < 2 ^ prec f)%Z -> Pgrid2 e B p -> Pgrid2 e B q -> Pgrid2 e B r ->
  (p2_is_closer_to p q r = true <-> Rdist2 (RP2 q) (RP2 p) < Rdist2 (RP2 r) (RP2 p)) /\ (p2_is_farther_from p q r = true <-> Rdist2 (RP2 q) (RP2 p) > Rdist2 (RP2 r) (RP2 p)).
Proof. exact C73_closer_exact_2d_pf. Qed.
Print Assumptions C73_closer_exact_2d.
Theorem C73_closer_exact_3d : forall (f : format) (P : platform f) (e B : Z) (p q r : Point3 (num (IEEE f P))), (-30 <= e <= 30)%Z -> (3 * (4 * (B * B)) < 2 ^ prec f)%Z -> Pgrid3 e B p -> Pgrid3 e B q -> Pgrid3 e B r ->
  (p3_is_closer_to p q r = true <-> Rdist3 (RP3 q) (RP3 p) < Rdist3 (RP3 r) (RP3 p)) /\ (p3_is_farther_from p q r = true <-> Rdist3 (RP3 q) (RP3 p) > Rdist3 (RP3 r) (RP3 p)).
Proof. exact C73_closer_exact_3d_pf. Qed.
Print Assumptions C73_closer_exact_3d.
(** ** length of a vector whose length is itself a multiple of the grid spacing: (3, 4) has length 5, exactly *)
Theorem C73_length_exact_2d : forall (f : format) (P : platform f) (e B n : Z) (v : Vector2 (num (IEEE f P))), (-30 <= e <= 30)%Z -> (2 * (B * B) < 2 ^ prec f)%Z -> Vgrid2 e B v ->
  Rnorm2 (RV2 v) = IZR n * bpow radix2 e -> RealVal (v2_length v) (Rnorm2 (RV2 v)).
Proof. exact C73_length_exact_2d_pf. Qed.
Print Assumptions C73_length_exact_2d.
Theorem C73_length_exact_3d : forall (f : format) (P : platform f) (e B n : Z) (v : Vector3 (num (IEEE f P))), (-30 <= e <= 30)%Z -> (3 * (B * B) < 2 ^ prec f)%Z -> Vgrid3 e B v ->
  Rnorm3 (RV3 v) = IZR n * bpow radix2 e -> RealVal (v3_length v) (Rnorm3 (RV3 v)).
Proof. exact C73_length_exact_3d_pf. Qed.
Print Assumptions C73_length_exact_3d.
(** ** cross product *)
Theorem C73_cross_exact : forall (f : format) (P : platform f) (e B : Z) (v w : Vector3 (num (IEEE f P))), (-30 <= e <= 30)%Z -> (2 * (B * B) < 2 ^ prec f)%Z -> Vgrid3 e B v -> Vgrid3 e B w -> forall d,
  let x i := vcoord3 (RV3 v) i in let y i := vcoord3 (RV3 w) i in
  let (i, j) := match d with D3X => (D3Y, D3Z) | D3Y => (D3Z, D3X) | D3Z => (D3X, D3Y) end in
  RealVal (vcoord3 (v3_cross v w) d) (x i * y j - x j * y i).
Proof. exact C73_cross_exact_pf. Qed.
Print Assumptions C73_cross_exact.
(** ** ray evaluation *)
Theorem C73_ray_at_exact_2d : forall (f : format) (P : platform f) (e g O B T : Z) (r : Ray2 (num (IEEE f P))) (t : num (IEEE f P)), (-30 <= e <= 30)%Z -> (-30 <= g <= 30)%Z -> (O + B * T < 2 ^ prec f)%Z ->
  Pgrid2 (e + g) O (r2_origin r) -> Vgrid2 e B (r2_direction r) -> on_grid g T t -> forall d,
  RealVal (coord2 (r2_at r t) d) (coord2 (Rat2 (mkRay2 (RP2 (r2_origin r)) (RV2 (r2_direction r))) (real_of t)) d).
Proof. exact C73_ray_at_exact_2d_pf. Qed.
Print Assumptions C73_ray_at_exact_2d.
Theorem C73_ray_at_exact_3d : forall (f : format) (P : platform f) (e g O B T : Z) (r : Ray3 (num (IEEE f P))) (t : num (IEEE f P)), (-30 <= e <= 30)%Z -> (-30 <= g <= 30)%Z -> (O + B * T < 2 ^ prec f)%Z ->
  Pgrid3 (e + g) O (r3_origin r) -> Vgrid3 e B (r3_direction r) -> on_grid g T t -> forall d,
  RealVal (coord3 (r3_at r t) d) (coord3 (Rat3 (mkRay3 (RP3 (r3_origin r)) (RV3 (r3_direction r))) (real_of t)) d).
Proof. exact C73_ray_at_exact_3d_pf. Qed.
Print Assumptions C73_ray_at_exact_3d.
(** ** matrix products; a vector under a matrix; a point under an affine matrix *)
Theorem C73_matrix_product_exact_2d : forall (f : format) (P : platform f) (prof : profile) (e g B C : Z) (a b : Matrix3x3 (num (IEEE f P))), (-30 <= e <= 30)%Z -> (-30 <= g <= 30)%Z -> (3 * (B * C) < 2 ^ prec f)%Z ->
  Mgrid3 e B a -> Mgrid3 g C b -> forall r c x, (r < 3)%N -> (c < 3)%N -> m3_get prof (m3_mul a b) r c = Ret x ->
  RealVal x (mat_mul 3 (ent3 (RM3 a)) (ent3 (RM3 b)) (N.to_nat r) (N.to_nat c)).
Proof. exact C73_matrix_product_exact_2d_pf. Qed.
Print Assumptions C73_matrix_product_exact_2d.
Theorem C73_matrix_product_exact_3d : forall (f : format) (P : platform f) (prof : profile) (e g B C : Z) (a b : Matrix4x4 (num (IEEE f P))), (-30 <= e <= 30)%Z -> (-30 <= g <= 30)%Z -> (4 * (B * C) < 2 ^ prec f)%Z ->
  Mgrid4 e B a -> Mgrid4 g C b -> forall r c x, (r < 4)%N -> (c < 4)%N -> m4_get prof (m4_mul a b) r c = Ret x ->
  RealVal x (mat_mul 4 (ent4 (RM4 a)) (ent4 (RM4 b)) (N.to_nat r) (N.to_nat c)).
Proof. exact C73_matrix_product_exact_3d_pf. Qed.
Print Assumptions C73_matrix_product_exact_3d.
Theorem C73_matrix_vector_exact_2d : forall (f : format) (P : platform f) (e g B C : Z) (m : Matrix3x3 (num (IEEE f P))) (v : Vector2 (num (IEEE f P))), (-30 <= e <= 30)%Z -> (-30 <= g <= 30)%Z -> (2 * (C * B) < 2 ^ prec f)%Z ->
  Mgrid3 g C m -> Vgrid2 e B v -> forall d, RealVal (vcoord2 (m3_mul_vector m v) d) (mat_apply 3 (ent3 (RM3 m)) (dir2 (RV2 v)) (dim2_index d)).
Proof. exact C73_matrix_vector_exact_2d_pf. Qed.
Print Assumptions C73_matrix_vector_exact_2d.
Theorem C73_matrix_vector_exact_3d : forall (f : format) (P : platform f) (e g B C : Z) (m : Matrix4x4 (num (IEEE f P))) (v : Vector3 (num (IEEE f P))), (-30 <= e <= 30)%Z -> (-30 <= g <= 30)%Z -> (3 * (C * B) < 2 ^ prec f)%Z ->
  Mgrid4 g C m -> Vgrid3 e B v -> forall d, RealVal (vcoord3 (m4_mul_vector m v) d) (mat_apply 4 (ent4 (RM4 m)) (dir3 (RV3 v)) (dim3_index d)).
Proof. exact C73_matrix_vector_exact_3d_pf. Qed.
Print Assumptions C73_matrix_vector_exact_3d.
Theorem C73_affine_point_exact_2d : forall (f : format) (P : platform f) (e g B C T : Z) (m : Matrix3x3 (num (IEEE f P))) (p : Point2 (num (IEEE f P))), (-30 <= e <= 30)%Z -> (-30 <= g <= 30)%Z -> (2 * (C * B) + T < 2 ^ prec f)%Z ->
  Agrid3 g C (g + e) T m -> Pgrid2 e B p -> forall d, RealVal (coord2 (m3_mul_point m p) d) (coord2 (img2 (RM3 m) (RP2 p)) d).
Proof. exact C73_affine_point_exact_2d_pf. Qed.
Print Assumptions C73_affine_point_exact_2d.
Theorem C73_affine_point_exact_3d : forall (f : format) (P : platform f) (e g B C T : Z) (m : Matrix4x4 (num (IEEE f P))) (p : Point3 (num (IEEE f P))), (-30 <= e <= 30)%Z -> (-30 <= g <= 30)%Z -> (3 * (C * B) + T < 2 ^ prec f)%Z ->
  Agrid4 g C (g + e) T m -> Pgrid3 e B p -> forall d, RealVal (coord3 (m4_mul_point m p) d) (coord3 (img3 (RM4 m) (RP3 p)) d).
Proof. exact C73_affine_point_exact_3d_pf. Qed.
Print Assumptions C73_affine_point_exact_3d.
(** ** translating and translating back *)
Theorem C73_translate_round_trip_2d : forall (f : format) (P : platform f) (e B : Z) (v : Vector2 (num (IEEE f P))) (p : Point2 (num (IEEE f P))), (-30 <= e <= 30)%Z -> (2 * B < 2 ^ prec f)%Z -> Vgrid2 e B v -> Pgrid2 e B p ->
  let t := t2_translate v in PEq2 (t2_transform_point (t2_inverse t) (t2_transform_point t p)) p /\ PEq2 (t2_transform_point t (t2_transform_point (t2_inverse t) p)) p.
Proof. exact C73_translate_round_trip_2d_pf. Qed.
Print Assumptions C73_translate_round_trip_2d.
Theorem C73_translate_round_trip_3d : forall (f : format) (P : platform f) (e B : Z) (v : Vector3 (num (IEEE f P))) (p : Point3 (num (IEEE f P))), (-30 <= e <= 30)%Z -> (2 * B < 2 ^ prec f)%Z -> Vgrid3 e B v -> Pgrid3 e B p ->
  let t := t3_translate v in PEq3 (t3_transform_point (t3_inverse t) (t3_transform_point t p)) p /\ PEq3 (t3_transform_point t (t3_transform_point (t3_inverse t) p)) p.
Proof. exact C73_translate_round_trip_3d_pf. Qed.
Print Assumptions C73_translate_round_trip_3d.
(** ** box measurements *)
Theorem C73_box_extent_center_exact_2d : forall (f : format) (P : platform f) (e B : Z) (b : BoundingBox2 (num (IEEE f P))), (-30 <= e <= 30)%Z -> (4 * B < 2 ^ prec f)%Z -> Bgrid2 e B b -> forall d,
  let lo := real_of (coord2 (bb2_min b) d) in let hi := real_of (coord2 (bb2_max b) d) in
  RealVal (bb2_extent b d) (hi - lo) /\ RealVal (vcoord2 (bb2_diagonal b) d) (hi - lo) /\ RealVal (coord2 (bb2_center b) d) ((lo + hi) / 2).
Proof. exact C73_box_extent_center_exact_2d_pf. Qed.
Print Assumptions C73_box_extent_center_exact_2d.
Theorem C73_box_extent_center_exact_3d : forall (f : format) (P : platform f) (e B : Z) (b : BoundingBox3 (num (IEEE f P))), (-30 <= e <= 30)%Z -> (4 * B < 2 ^ prec f)%Z -> Bgrid3 e B b -> forall d,
  let lo := real_of (coord3 (bb3_min b) d) in let hi := real_of (coord3 (bb3_max b) d) in
  RealVal (bb3_extent b d) (hi - lo) /\ RealVal (vcoord3 (bb3_diagonal b) d) (hi - lo) /\ RealVal (coord3 (bb3_center b) d) ((lo + hi) / 2).
Proof. exact C73_box_extent_center_exact_3d_pf. Qed.
Print Assumptions C73_box_extent_center_exact_3d.
Theorem C73_area_exact_2d : forall (f : format) (P : platform f) (e B : Z) (b : BoundingBox2 (num (IEEE f P))), (-30 <= e <= 30)%Z -> (4 * (B * B) < 2 ^ prec f)%Z -> Bgrid2 e B b ->
  let d i := real_of (coord2 (bb2_max b) i) - real_of (coord2 (bb2_min b) i) in RealVal (bb2_area b) (d D2X * d D2Y).
Proof. exact C73_area_exact_2d_pf. Qed.
Print Assumptions C73_area_exact_2d.
Theorem C73_volume_surface_exact_3d : forall (f : format) (P : platform f) (e B : Z) (b : BoundingBox3 (num (IEEE f P))), (-30 <= e <= 30)%Z -> Bgrid3 e B b ->
  let d i := real_of (coord3 (bb3_max b) i) - real_of (coord3 (bb3_min b) i) in
  ((8 * (B * B * B) < 2 ^ prec f)%Z -> RealVal (bb3_volume b) (d D3X * d D3Y * d D3Z)) /\
  ((24 * (B * B) < 2 ^ prec f)%Z -> RealVal (bb3_surface_area b) (2 * (d D3X * d D3Y + d D3X * d D3Z + d D3Y * d D3Z))).
Proof. exact C73_volume_surface_exact_3d_pf. Qed.
Print Assumptions C73_volume_surface_exact_3d.
(* the hypotheses are met: integers up to 1000 in f32, up to a million in f64; (3, 4) has length 5 *)
Lemma int_grid (f : format) (P : platform f) n B : (Z.abs n < 2 ^ prec f)%Z -> (Z.abs n <= B)%Z -> Finite (flit f n 0 : num (IEEE f P)) -> on_grid (A := IEEE f P) 0 B (flit f n 0).
Proof. intros H L F. split; [exact F | exists n; split; [change (bpow radix2 0) with 1; rewrite Rmult_1_r; apply real_flit; exact H | exact L]]. Qed.
Example C73_example : let v := mkVector2 (d64 3 0) (nd64 4 0) : Vector2 (num A64) in let b := mkBB3 (mkPoint3 (nd64 1000000 0) (d64 2 0) (d64 5 0)) (mkPoint3 (d64 7 0) (d64 123456 0) (d64 999999 0)) : BoundingBox3 (num A64) in
  Vgrid2 0 4 v /\ (2 * (4 * 4) < 2 ^ prec F64)%Z /\ Rnorm2 (RV2 v) = IZR 5 * bpow radix2 0 /\ Bgrid3 0 1000000 b /\ (24 * (1000000 * 1000000) < 2 ^ prec F64)%Z /\
  Pgrid2 0 1000 (mkPoint2 (flit F32 1000 0) (flit F32 (-999) 0) : Point2 (num A32)) /\ (2 * (4 * (1000 * 1000)) < 2 ^ prec F32)%Z.
Proof.
  cbv zeta. split; [intros []; apply int_grid; try (vm_compute; congruence); reflexivity|]. split; [reflexivity|]. split.
  { unfold Rnorm2, RV2. cbn [v2x v2y]. assert (R3 : real_of (A := A64) (d64 3 0) = 3) by (apply real_flit; reflexivity). assert (R4 : real_of (A := A64) (nd64 4 0) = -4) by (apply real_flit; reflexivity). rewrite R3, R4. replace (3 ^ 2 + (-4) ^ 2) with (5 * 5) by ring. rewrite sqrt_square by lra. cbn. ring. }
  split; [split; intros []; apply int_grid; try (vm_compute; congruence); reflexivity|]. split; [reflexivity|]. split; [intros []; apply int_grid; try (vm_compute; congruence); reflexivity|]. reflexivity.
Qed.
