(** Theorems: C90 (where NaN goes and where it comes from).
    [A] ranges over f32 and f64 on every platform, and exact reals extended with infinities and NaN. *)
From Coq Require Import Bool NArith ZArith Reals List Lia.
From Verif Require Import Scalar Types Vector2 Vector3 Point2 Point3 Ray BoundingBox2 BoundingBox3 Transform2 Transform3 Float
  XReal Arith SpecOrder SpecFloat SpecReal SpecNan SpecStruct ExVals FloatErr FloatNan.
Import ListNotations.
(** a NaN component reaches every sum of products it enters *)
Theorem C90_vector_nan_2d : forall (A : arith) (v w : Vector2 (num A)) (s : num A), (exists d, NaN (vcoord2 v d)) ->
  NaN (v2_dot v w) /\ NaN (v2_dot w v) /\ NaN (v2_length v) /\ VAllNaN2 (v2_normalize v).
Proof. exact C90_vector_nan_2d_pf. Qed.
Print Assumptions C90_vector_nan_2d.
Theorem C90_vector_nan_3d : forall (A : arith) (v w : Vector3 (num A)) (s : num A), (exists d, NaN (vcoord3 v d)) ->
  NaN (v3_dot v w) /\ NaN (v3_dot w v) /\ NaN (v3_length v) /\ VAllNaN3 (v3_normalize v).
Proof. exact C90_vector_nan_3d_pf. Qed.
Print Assumptions C90_vector_nan_3d.
Theorem C90_distance_nan_2d : forall (A : arith) (p q : Point2 (num A)), (exists d, NaN (coord2 p d)) \/ (exists d, NaN (coord2 q d)) -> NaN (p2_distance p q).
Proof. exact C90_distance_nan_2d_pf. Qed.
Print Assumptions C90_distance_nan_2d.
Theorem C90_distance_nan_3d : forall (A : arith) (p q : Point3 (num A)), (exists d, NaN (coord3 p d)) \/ (exists d, NaN (coord3 q d)) -> NaN (p3_distance p q).
Proof. exact C90_distance_nan_3d_pf. Qed.
Print Assumptions C90_distance_nan_3d.
Theorem C90_cross_nan : forall (A : arith) (v w : Vector3 (num A)) (d e : Dimension3), d <> e -> NaN (vcoord3 v d) -> NaN (vcoord3 (v3_cross v w) e) /\ NaN (vcoord3 (v3_cross w v) e).
Proof. exact C90_cross_nan_pf. Qed.
Print Assumptions C90_cross_nan.
(** every coordinate of a transformed point or vector *)
Theorem C90_transform_nan_2d : forall (A : arith) (t : Transform2 (num A)) (p : Point2 (num A)) (v : Vector2 (num A)),
  ((exists d, NaN (coord2 p d)) -> AllNaN2 (t2_transform_point t p)) /\ ((exists d, NaN (vcoord2 v d)) -> VAllNaN2 (t2_transform_vector t v)).
Proof. exact C90_transform_nan_2d_pf. Qed.
Print Assumptions C90_transform_nan_2d.
Theorem C90_transform_nan_3d : forall (A : arith) (t : Transform3 (num A)) (p : Point3 (num A)) (v : Vector3 (num A)),
  ((exists d, NaN (coord3 p d)) -> AllNaN3 (t3_transform_point t p)) /\ ((exists d, NaN (vcoord3 v d)) -> VAllNaN3 (t3_transform_vector t v)).
Proof. exact C90_transform_nan_3d_pf. Qed.
Print Assumptions C90_transform_nan_3d.
(** a NaN entry fills its row of a product on the left, its column on the right, and the whole inverse, which does not fail *)
Theorem C90_matrix_product_nan_2d : forall (A : arith) (prof : profile) (a b : Matrix3x3 (num A)) (r c : N) (x : num A), (r < 3)%N -> (c < 3)%N -> m3_get prof a r c = Ret x -> NaN x ->
  (forall c' y, (c' < 3)%N -> m3_get prof (m3_mul a b) r c' = Ret y -> NaN y) /\ (forall r' y, (r' < 3)%N -> m3_get prof (m3_mul b a) r' c = Ret y -> NaN y).
Proof. exact C90_matrix_product_nan_2d_pf. Qed.
Print Assumptions C90_matrix_product_nan_2d.
Theorem C90_matrix_product_nan_3d : forall (A : arith) (prof : profile) (a b : Matrix4x4 (num A)) (r c : N) (x : num A), (r < 4)%N -> (c < 4)%N -> m4_get prof a r c = Ret x -> NaN x ->
  (forall c' y, (c' < 4)%N -> m4_get prof (m4_mul a b) r c' = Ret y -> NaN y) /\ (forall r' y, (r' < 4)%N -> m4_get prof (m4_mul b a) r' c = Ret y -> NaN y).
Proof. exact C90_matrix_product_nan_3d_pf. Qed.
Print Assumptions C90_matrix_product_nan_3d.
Theorem C90_matrix_inverse_nan_2d : forall (A : arith) (prof : profile) (m : Matrix3x3 (num A)) (r c : N) (x : num A), (r < 3)%N -> (c < 3)%N -> m3_get prof m r c = Ret x -> NaN x ->
  exists i, m3_inverse m = Ok i /\ (forall r' c' y, (r' < 3)%N -> (c' < 3)%N -> m3_get prof i r' c' = Ret y -> NaN y).
Proof. exact C90_matrix_inverse_nan_2d_pf. Qed.
Print Assumptions C90_matrix_inverse_nan_2d.
Theorem C90_matrix_inverse_nan_3d : forall (A : arith) (prof : profile) (m : Matrix4x4 (num A)) (r c : N) (x : num A), (r < 4)%N -> (c < 4)%N -> m4_get prof m r c = Ret x -> NaN x ->
  exists i, m4_inverse prof m = Ret (Ok i) /\ (forall r' c' y, (r' < 4)%N -> (c' < 4)%N -> m4_get prof i r' c' = Ret y -> NaN y).
Proof. exact C90_matrix_inverse_nan_3d_pf. Qed.
Print Assumptions C90_matrix_inverse_nan_3d.
(** a NaN coordinate of the ray removes that axis from the ray-box test *)
Theorem C90_ray_box_nan_axis_2d : forall (A : arith) (b b' : BoundingBox2 (num A)) (r r' : Ray2 (num A)) (d : Dimension2),
  NaN (coord2 (r2_origin r) d) \/ NaN (vcoord2 (r2_direction r) d) ->
  (forall e, e <> d -> coord2 (bb2_min b') e = coord2 (bb2_min b) e /\ coord2 (bb2_max b') e = coord2 (bb2_max b) e /\ coord2 (r2_origin r') e = coord2 (r2_origin r) e /\ vcoord2 (r2_direction r') e = vcoord2 (r2_direction r) e) ->
  coord2 (bb2_min b') d = sninf -> coord2 (bb2_max b') d = sinf -> Finite (coord2 (r2_origin r') d) -> Finite (vcoord2 (r2_direction r') d) -> Lt szero (vcoord2 (r2_direction r') d) ->
  bb2_intersect_ray b r = bb2_intersect_ray b' r'.
Proof. exact C90_ray_box_nan_axis_2d_pf. Qed.
Print Assumptions C90_ray_box_nan_axis_2d.
Theorem C90_ray_box_nan_axis_3d : forall (A : arith) (b b' : BoundingBox3 (num A)) (r r' : Ray3 (num A)) (d : Dimension3),
  NaN (coord3 (r3_origin r) d) \/ NaN (vcoord3 (r3_direction r) d) ->
  (forall e, e <> d -> coord3 (bb3_min b') e = coord3 (bb3_min b) e /\ coord3 (bb3_max b') e = coord3 (bb3_max b) e /\ coord3 (r3_origin r') e = coord3 (r3_origin r) e /\ vcoord3 (r3_direction r') e = vcoord3 (r3_direction r) e) ->
  coord3 (bb3_min b') d = sninf -> coord3 (bb3_max b') d = sinf -> Finite (coord3 (r3_origin r') d) -> Finite (vcoord3 (r3_direction r') d) -> Lt szero (vcoord3 (r3_direction r') d) ->
  bb3_intersect_ray b r = bb3_intersect_ray b' r'.
Proof. exact C90_ray_box_nan_axis_3d_pf. Qed.
Print Assumptions C90_ray_box_nan_axis_3d.
(** finite operands give NaN only where infinities of both signs, or an infinity and a zero, can meet *)
Theorem C90_finite_not_nan_2d : forall (A : arith) (p q : Point2 (num A)) (v w : Vector2 (num A)) (s : num A), Finite2 p -> Finite2 q -> VFinite2 v -> VFinite2 w -> Finite s ->
  NoNaN2 (p2_add p v) /\ NoNaN2 (p2_sub_v p v) /\ VNoNaN2 (p2_sub p q) /\ VNoNaN2 (v2_add v w) /\ VNoNaN2 (v2_sub v w) /\ VNoNaN2 (v2_mul v s) /\ (~ Eqs s szero -> VNoNaN2 (v2_div v s)) /\
  NoNaN (v2_dot v v) /\ NoNaN (v2_length v) /\ NoNaN (p2_distance p q) /\ (forall t, Finite t -> NoNaN2 (r2_at (r2_new p v) t)) /\
  (let b := mkBB2 p q in (forall d, NoNaN (bb2_extent b d)) /\ NoNaN2 (bb2_center b)).
Proof. exact C90_finite_not_nan_2d_pf. Qed.
Print Assumptions C90_finite_not_nan_2d.
Theorem C90_finite_not_nan_3d : forall (A : arith) (p q : Point3 (num A)) (v w : Vector3 (num A)) (s : num A), Finite3 p -> Finite3 q -> VFinite3 v -> VFinite3 w -> Finite s ->
  NoNaN3 (p3_add p v) /\ NoNaN3 (p3_sub_v p v) /\ VNoNaN3 (p3_sub p q) /\ VNoNaN3 (v3_add v w) /\ VNoNaN3 (v3_sub v w) /\ VNoNaN3 (v3_mul v s) /\ (~ Eqs s szero -> VNoNaN3 (v3_div v s)) /\
  NoNaN (v3_dot v v) /\ NoNaN (v3_length v) /\ NoNaN (p3_distance p q) /\ (forall t, Finite t -> NoNaN3 (r3_at (r3_new p v) t)) /\
  (let b := mkBB3 p q in (forall d, NoNaN (bb3_extent b d)) /\ NoNaN3 (bb3_center b)).
Proof. exact C90_finite_not_nan_3d_pf. Qed.
Print Assumptions C90_finite_not_nan_3d.
(** where finite operands do give NaN: products of opposite sign that overflow, and an overflowing extent times a zero extent *)
Theorem C90_finite_operands_nan : let v := mkVector3 (d64 1 600) (d64 1 600) (d64 0 0) : Vector3 (num A64) in let w := mkVector3 (d64 1 600) (nd64 1 600) (d64 1 0) : Vector3 (num A64) in
  let b := mkBB2 (mkPoint2 (nd64 1 1023) (d64 0 0)) (mkPoint2 (d64 1 1023) (d64 0 0)) : BoundingBox2 (num A64) in
  VFinite3 v /\ VFinite3 w /\ NaN (v3_dot v w) /\ NaN (vcoord3 (v3_cross v v) D3Z) /\ Ordered2 b /\ Finite2 (bb2_min b) /\ Finite2 (bb2_max b) /\ NaN (bb2_area b).
Proof. exact C90_finite_operands_nan_pf. Qed.
Print Assumptions C90_finite_operands_nan.
(* the hypotheses are met: NaN inputs of each kind; a ray with a NaN coordinate that still hits the box; a matrix with one NaN entry *)
Example C90_example : let v := mkVector3 (d64 1 0) nan64 (d64 3 0) : Vector3 (num A64) in let r := mkRay2 (mkPoint2 (nd64 1 0) nan64) (mkVector2 (d64 1 0) (d64 1 0)) : Ray2 (num A64) in
  let r' := mkRay2 (mkPoint2 (nd64 1 0) (d64 0 0)) (mkVector2 (d64 1 0) (d64 1 0)) : Ray2 (num A64) in
  let m := mkM3 (d64 1 0) (d64 0 0) (d64 0 0) (d64 0 0) (d64 1 0) nan64 (d64 0 0) (d64 0 0) (d64 1 0) : Matrix3x3 (num A64) in
  NaN (vcoord3 v D3Y) /\ NaN (coord2 (r2_origin r) D2Y) /\ is_some (bb2_intersect_ray boxA2 r) = true /\ Finite (coord2 (r2_origin r') D2Y) /\ Lt szero (vcoord2 (r2_direction r') D2Y) /\
  (exists x, m3_get release_profile m 1 2 = Ret x /\ NaN x) /\ (exists i, m3_inverse m = Ok i /\ NaN (m3_0 i)).
Proof. cbv zeta. repeat apply conj; try (vm_compute; reflexivity); eexists; split; try (vm_compute; reflexivity); vm_compute; reflexivity. Qed.
