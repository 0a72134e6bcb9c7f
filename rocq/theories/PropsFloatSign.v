(** Theorems: C74 (negation symmetry).  f32, f64 on every platform, and exact arithmetic; all values, NaN and infinities included. *)
From Coq Require Import Bool NArith ZArith Reals List.
From Verif Require Import Scalar Types Vector2 Vector3 Point2 Point3 Ray BoundingBox2 BoundingBox3 Transform2 Transform3 Float
  XReal Arith SpecOrder SpecStruct SpecFloat SpecSame ExVals FloatSign.
(** ** C74: vector and point arithmetic *)
Theorem C74_arithmetic_2d : forall (A : arith) (a b : Vector2 (num A)) (p q : Point2 (num A)) (s : num A),
  v2_neg (v2_neg a) = a /\ p2_neg (p2_neg p) = p /\
  VSame2 (v2_add (v2_neg a) (v2_neg b)) (v2_neg (v2_add a b)) /\ VSame2 (v2_sub a b) (v2_neg (v2_sub b a)) /\ VSame2 (p2_sub p q) (v2_neg (p2_sub q p)) /\
  VSame2 (v2_mul (v2_neg a) s) (v2_neg (v2_mul a s)) /\ VSame2 (v2_mul a (sneg s)) (v2_neg (v2_mul a s)) /\
  VSame2 (v2_div (v2_neg a) s) (v2_neg (v2_div a s)) /\ (~ Eqs s szero -> VSame2 (v2_div a (sneg s)) (v2_neg (v2_div a s))).
Proof. exact C74_arithmetic_2d_pf. Qed.
Print Assumptions C74_arithmetic_2d.
Theorem C74_arithmetic_3d : forall (A : arith) (a b : Vector3 (num A)) (p q : Point3 (num A)) (s : num A),
  v3_neg (v3_neg a) = a /\ p3_neg (p3_neg p) = p /\
  VSame3 (v3_add (v3_neg a) (v3_neg b)) (v3_neg (v3_add a b)) /\ VSame3 (v3_sub a b) (v3_neg (v3_sub b a)) /\ VSame3 (p3_sub p q) (v3_neg (p3_sub q p)) /\
  VSame3 (v3_mul (v3_neg a) s) (v3_neg (v3_mul a s)) /\ VSame3 (v3_mul a (sneg s)) (v3_neg (v3_mul a s)) /\
  VSame3 (v3_div (v3_neg a) s) (v3_neg (v3_div a s)) /\ (~ Eqs s szero -> VSame3 (v3_div a (sneg s)) (v3_neg (v3_div a s))).
Proof. exact C74_arithmetic_3d_pf. Qed.
Print Assumptions C74_arithmetic_3d.
(** ** products of vectors and matrices *)
Theorem C74_dot_2d : forall (A : arith) (a b : Vector2 (num A)), Same (v2_dot (v2_neg a) b) (sneg (v2_dot a b)) /\ Same (v2_dot a (v2_neg b)) (sneg (v2_dot a b)) /\ Same (v2_dot (v2_neg a) (v2_neg b)) (v2_dot a b).
Proof. exact C74_dot_2d_pf. Qed.
Print Assumptions C74_dot_2d.
Theorem C74_dot_3d : forall (A : arith) (a b : Vector3 (num A)), Same (v3_dot (v3_neg a) b) (sneg (v3_dot a b)) /\ Same (v3_dot a (v3_neg b)) (sneg (v3_dot a b)) /\ Same (v3_dot (v3_neg a) (v3_neg b)) (v3_dot a b).
Proof. exact C74_dot_3d_pf. Qed.
Print Assumptions C74_dot_3d.
Theorem C74_cross : forall (A : arith) (a b : Vector3 (num A)),
  VSame3 (v3_cross (v3_neg a) b) (v3_neg (v3_cross a b)) /\ VSame3 (v3_cross a (v3_neg b)) (v3_neg (v3_cross a b)) /\ VSame3 (v3_cross b a) (v3_neg (v3_cross a b)) /\
  (VNoNaN3 (v3_cross a a) -> VEq3 (v3_cross a a) v3_zero).
Proof. exact C74_cross_pf. Qed.
Print Assumptions C74_cross.
Theorem C74_matrix_2d : forall (A : arith) (m : Matrix3x3 (num A)) (v : Vector2 (num A)), VSame2 (m3_mul_vector m (v2_neg v)) (v2_neg (m3_mul_vector m v)) /\ VSame2 (v2_mul_m3 (v2_neg v) m) (v2_neg (v2_mul_m3 v m)).
Proof. exact C74_matrix_2d_pf. Qed.
Print Assumptions C74_matrix_2d.
Theorem C74_matrix_3d : forall (A : arith) (m : Matrix4x4 (num A)) (v : Vector3 (num A)), VSame3 (m4_mul_vector m (v3_neg v)) (v3_neg (m4_mul_vector m v)) /\ VSame3 (v3_mul_m4 (v3_neg v) m) (v3_neg (v3_mul_m4 v m)).
Proof. exact C74_matrix_3d_pf. Qed.
Print Assumptions C74_matrix_3d.
(** ** lengths, normalize and comparisons *)
Theorem C74_length_2d : forall (A : arith) (a b : Vector2 (num A)), v2_length (v2_neg a) = v2_length a /\ VSame2 (v2_normalize (v2_neg a)) (v2_neg (v2_normalize a)) /\
  v2_is_shorter_than (v2_neg a) b = v2_is_shorter_than a b /\ v2_is_shorter_than a (v2_neg b) = v2_is_shorter_than a b /\
  v2_is_longer_than (v2_neg a) b = v2_is_longer_than a b /\ v2_is_longer_than a (v2_neg b) = v2_is_longer_than a b.
Proof. exact C74_length_2d_pf. Qed.
Print Assumptions C74_length_2d.
Theorem C74_length_3d : forall (A : arith) (a b : Vector3 (num A)), v3_length (v3_neg a) = v3_length a /\ VSame3 (v3_normalize (v3_neg a)) (v3_neg (v3_normalize a)) /\
  v3_is_shorter_than (v3_neg a) b = v3_is_shorter_than a b /\ v3_is_shorter_than a (v3_neg b) = v3_is_shorter_than a b /\
  v3_is_longer_than (v3_neg a) b = v3_is_longer_than a b /\ v3_is_longer_than a (v3_neg b) = v3_is_longer_than a b.
Proof. exact C74_length_3d_pf. Qed.
Print Assumptions C74_length_3d.
(** ** rounding to integers, min and max, boxes *)
Theorem C74_rounding_2d : forall (A : arith) (v : Vector2 (num A)) (p : Point2 (num A)),
  VSame2 (v2_floor (v2_neg v)) (v2_neg (v2_ceil v)) /\ VSame2 (v2_ceil (v2_neg v)) (v2_neg (v2_floor v)) /\ VSame2 (v2_round (v2_neg v)) (v2_neg (v2_round v)) /\
  VSame2 (v2_trunc (v2_neg v)) (v2_neg (v2_trunc v)) /\ VSame2 (v2_fract (v2_neg v)) (v2_neg (v2_fract v)) /\ VSame2 (v2_abs (v2_neg v)) (v2_abs v) /\
  PSame2 (p2_floor (p2_neg p)) (p2_neg (p2_ceil p)) /\ PSame2 (p2_ceil (p2_neg p)) (p2_neg (p2_floor p)) /\ PSame2 (p2_round (p2_neg p)) (p2_neg (p2_round p)) /\
  PSame2 (p2_trunc (p2_neg p)) (p2_neg (p2_trunc p)) /\ PSame2 (p2_fract (p2_neg p)) (p2_neg (p2_fract p)) /\ PSame2 (p2_abs (p2_neg p)) (p2_abs p).
Proof. exact C74_rounding_2d_pf. Qed.
Print Assumptions C74_rounding_2d.
Theorem C74_rounding_3d : forall (A : arith) (v : Vector3 (num A)) (p : Point3 (num A)),
  VSame3 (v3_floor (v3_neg v)) (v3_neg (v3_ceil v)) /\ VSame3 (v3_ceil (v3_neg v)) (v3_neg (v3_floor v)) /\ VSame3 (v3_round (v3_neg v)) (v3_neg (v3_round v)) /\
  VSame3 (v3_trunc (v3_neg v)) (v3_neg (v3_trunc v)) /\ VSame3 (v3_fract (v3_neg v)) (v3_neg (v3_fract v)) /\ VSame3 (v3_abs (v3_neg v)) (v3_abs v) /\
  PSame3 (p3_floor (p3_neg p)) (p3_neg (p3_ceil p)) /\ PSame3 (p3_ceil (p3_neg p)) (p3_neg (p3_floor p)) /\ PSame3 (p3_round (p3_neg p)) (p3_neg (p3_round p)) /\
  PSame3 (p3_trunc (p3_neg p)) (p3_neg (p3_trunc p)) /\ PSame3 (p3_fract (p3_neg p)) (p3_neg (p3_fract p)) /\ PSame3 (p3_abs (p3_neg p)) (p3_abs p).
Proof. exact C74_rounding_3d_pf. Qed.
Print Assumptions C74_rounding_3d.
Theorem C74_minmax_2d : forall (A : arith) (a b : Vector2 (num A)) (p q : Point2 (num A)),
  VSame2 (v2_min (v2_neg a) (v2_neg b)) (v2_neg (v2_max a b)) /\ VSame2 (v2_max (v2_neg a) (v2_neg b)) (v2_neg (v2_min a b)) /\
  PSame2 (p2_min (p2_neg p) (p2_neg q)) (p2_neg (p2_max p q)) /\ PSame2 (p2_max (p2_neg p) (p2_neg q)) (p2_neg (p2_min p q)).
Proof. exact C74_minmax_2d_pf. Qed.
Print Assumptions C74_minmax_2d.
Theorem C74_minmax_3d : forall (A : arith) (a b : Vector3 (num A)) (p q : Point3 (num A)),
  VSame3 (v3_min (v3_neg a) (v3_neg b)) (v3_neg (v3_max a b)) /\ VSame3 (v3_max (v3_neg a) (v3_neg b)) (v3_neg (v3_min a b)) /\
  PSame3 (p3_min (p3_neg p) (p3_neg q)) (p3_neg (p3_max p q)) /\ PSame3 (p3_max (p3_neg p) (p3_neg q)) (p3_neg (p3_min p q)).
Proof. exact C74_minmax_3d_pf. Qed.
Print Assumptions C74_minmax_3d.
Theorem C74_box_2d : forall (A : arith) (p q r : Point2 (num A)) (b : BoundingBox2 (num A)),
  let flip (b : BoundingBox2 (num A)) := mkBB2 (p2_neg (bb2_max b)) (p2_neg (bb2_min b)) in
  let same (a b : BoundingBox2 (num A)) := PSame2 (bb2_min a) (bb2_min b) /\ PSame2 (bb2_max a) (bb2_max b) in
  same (bb2_new (p2_neg p) (p2_neg q)) (flip (bb2_new p q)) /\ same (bb2_union_point (flip b) (p2_neg r)) (flip (bb2_union_point b r)) /\
  bb2_is_inside (flip b) (p2_neg r) = bb2_is_inside b r /\ (forall d, Same (bb2_extent (flip b) d) (bb2_extent b d)).
Proof. exact C74_box_2d_pf. Qed.
Print Assumptions C74_box_2d.
Theorem C74_box_3d : forall (A : arith) (p q r : Point3 (num A)) (b : BoundingBox3 (num A)),
  let flip (b : BoundingBox3 (num A)) := mkBB3 (p3_neg (bb3_max b)) (p3_neg (bb3_min b)) in
  let same (a b : BoundingBox3 (num A)) := PSame3 (bb3_min a) (bb3_min b) /\ PSame3 (bb3_max a) (bb3_max b) in
  same (bb3_new (p3_neg p) (p3_neg q)) (flip (bb3_new p q)) /\ same (bb3_union_point (flip b) (p3_neg r)) (flip (bb3_union_point b r)) /\
  bb3_is_inside (flip b) (p3_neg r) = bb3_is_inside b r /\ (forall d, Same (bb3_extent (flip b) d) (bb3_extent b d)).
Proof. exact C74_box_3d_pf. Qed.
Print Assumptions C74_box_3d.
(** ** rays *)
Theorem C74_ray_2d : forall (A : arith) (o : Point2 (num A)) (d : Vector2 (num A)) (t : num A), PSame2 (r2_at (mkRay2 o (v2_neg d)) (sneg t)) (r2_at (mkRay2 o d) t).
Proof. exact C74_ray_2d_pf. Qed.
Print Assumptions C74_ray_2d.
Theorem C74_ray_3d : forall (A : arith) (o : Point3 (num A)) (d : Vector3 (num A)) (t : num A), PSame3 (r3_at (mkRay3 o (v3_neg d)) (sneg t)) (r3_at (mkRay3 o d) t).
Proof. exact C74_ray_3d_pf. Qed.
Print Assumptions C74_ray_3d.
(* the cross product of a vector with itself is zero unless a product overflows: both cases occur *)
Example C74_example : VNoNaN3 (v3_cross (mkVector3 (d64 1 0) (d64 3 (-1)) (nd64 7 (-3))) (mkVector3 (d64 1 0) (d64 3 (-1)) (nd64 7 (-3))) : Vector3 (num A64)) /\
  ~ VNoNaN3 (v3_cross (mkVector3 (d64 1 600) (d64 1 600) (d64 1 600)) (mkVector3 (d64 1 600) (d64 1 600) (d64 1 600)) : Vector3 (num A64)).
Proof. split; [intros []; vm_compute; reflexivity|]. intros H. specialize (H D3X). revert H. vm_compute. discriminate. Qed.
