(** Property theorems C12, C30, C31, C34, C35, C36, C45, C50: structural properties, bit for bit.
    [A : arith] ranges over f32 and f64 on every platform (all bit patterns) and over exact arithmetic. *)
From Coq Require Import Bool NArith ZArith List.
From Verif Require Import Scalar Types Vector2 Vector3 Point2 Point3 Ray BoundingBox2 BoundingBox3 Transform2 Transform3
  Float XReal OrdLaws Arith SpecOrder SpecStruct Struct Struct2 MatComm ExVals.
Import ListNotations.

(** C12 *)
Theorem C12_corner_in_range_2d : forall (A : arith) (prof : profile) (b : BoundingBox2 (num A)) (i : N),
  debug_assertions prof = false \/ (i < 4)%N ->
  exists p, bb2_corner prof b i = Ret p /\
    forall d, coord2 p d = if N.testbit i (bit2 d) then coord2 (bb2_max b) d else coord2 (bb2_min b) d.
Proof. exact (fun A => bb2_corner_ok). Qed.
Print Assumptions C12_corner_in_range_2d.
Theorem C12_corner_out_of_range_panics_2d : forall (A : arith) (prof : profile) (b : BoundingBox2 (num A)) (i : N),
  debug_assertions prof = true -> (4 <= i)%N -> bb2_corner prof b i = Panic.
Proof. exact (fun A => bb2_corner_panic). Qed.
Print Assumptions C12_corner_out_of_range_panics_2d.
Theorem C12_corner_out_of_range_release_2d : forall (A : arith) (prof : profile) (b : BoundingBox2 (num A)) (i : N),
  debug_assertions prof = false -> bb2_corner prof b i = bb2_corner prof b (i mod 4).
Proof. exact (fun A => bb2_corner_mod). Qed.
Print Assumptions C12_corner_out_of_range_release_2d.
Theorem C12_corner_inside_2d : forall (A : arith) (prof : profile) (b : BoundingBox2 (num A)) (i : N) p,
  Ordered2 b -> bb2_corner prof b i = Ret p -> In2 p b.
Proof. exact (fun A => bb2_corner_inside (num_OrdLaws A)). Qed.
Print Assumptions C12_corner_inside_2d.
(* every choice of min/max per dimension is the corner of exactly one index *)
Theorem C12_corner_enumerates_2d : forall (c : Dimension2 -> bool),
  exists i, (i < 4)%N /\ (forall d, N.testbit i (bit2 d) = c d) /\
    forall j, (j < 4)%N -> (forall d, N.testbit j (bit2 d) = c d) -> j = i.
Proof. exact bb2_corner_enum. Qed.
Print Assumptions C12_corner_enumerates_2d.
(* a box with min <> max in every dimension has 4 different corners *)
Theorem C12_corners_distinct_2d : forall (A : arith) (prof : profile) (b : BoundingBox2 (num A)) (i j : N),
  (i < 4)%N -> (j < 4)%N -> (forall d, coord2 (bb2_min b) d <> coord2 (bb2_max b) d) ->
  bb2_corner prof b i = bb2_corner prof b j -> i = j.
Proof. exact (fun A => bb2_corner_inj). Qed.
Print Assumptions C12_corners_distinct_2d.
Example C12_example_2d : bb2_corner dev_profile boxA2 4 = Panic /\ bb2_corner dev_profile boxA2 (4 - 1) = Ret (bb2_max boxA2) /\
  bb2_corner release_profile boxA2 4 = Ret (bb2_min boxA2).
Proof. split; [|split]; reflexivity. Qed.

(** C30 *)
Theorem C30_point_compound_assignment_2d : forall (A : arith) (p : Point2 (num A)) (v : Vector2 (num A)) (s : num A),
  p2_add_assign p v = p2_add p v /\ p2_sub_assign p v = p2_sub_v p v /\
  p2_mul_assign p s = p2_mul p s /\ p2_div_assign p s = p2_div p s /\ p2_lmul s p = p2_mul p s.
Proof. exact (fun A p v s => conj eq_refl (conj eq_refl (conj eq_refl (conj eq_refl eq_refl)))). Qed.
Print Assumptions C30_point_compound_assignment_2d.
Theorem C30_vector_compound_assignment_2d : forall (A : arith) (p : Vector2 (num A)) (v : Vector2 (num A)) (s : num A),
  v2_add_assign p v = v2_add p v /\ v2_sub_assign p v = v2_sub p v /\
  v2_mul_assign p s = v2_mul p s /\ v2_div_assign p s = v2_div p s /\ v2_lmul s p = v2_mul p s.
Proof. exact (fun A p v s => conj eq_refl (conj eq_refl (conj eq_refl (conj eq_refl eq_refl)))). Qed.
Print Assumptions C30_vector_compound_assignment_2d.

(** C31: [history] is any list of in-place updates [p[d] = f(p[d])] (a plain write is a constant f) *)
Theorem C31_point_index_history_2d : forall (A : arith) (history : list (Dimension2 * (num A -> num A))) (p : Point2 (num A)) (d : Dimension2),
  p2_index (fold_left (fun q w => p2_index_set q (fst w) (snd w (p2_index q (fst w)))) history p) d
  = replay d2_eq history d (coord2 p d).
Proof. exact (fun A h p d => eq_trans (p2_index_history h p d) (f_equal (replay d2_eq h d) (p2_index_coord p d))). Qed.
Print Assumptions C31_point_index_history_2d.
Theorem C31_vector_index_history_2d : forall (A : arith) (history : list (Dimension2 * (num A -> num A))) (v : Vector2 (num A)) (d : Dimension2),
  v2_index (fold_left (fun q w => v2_index_set q (fst w) (snd w (v2_index q (fst w)))) history v) d
  = replay d2_eq history d (vcoord2 v d).
Proof. exact (fun A h p d => eq_trans (v2_index_history h p d) (f_equal (replay d2_eq h d) (v2_index_coord p d))). Qed.
Print Assumptions C31_vector_index_history_2d.
Theorem C31_dimension_equality_2d : forall a b : Dimension2, d2_eq a b = true <-> a = b.
Proof. exact d2_eq_spec. Qed.
Print Assumptions C31_dimension_equality_2d.
Theorem C31_permute_2d : forall (A : arith) (p : Point2 (num A)) (v : Vector2 (num A)) (dx dy : Dimension2),
  (coord2 (p2_permute p dx dy) D2X = coord2 p dx /\ coord2 (p2_permute p dx dy) D2Y = coord2 p dy) /\
  (vcoord2 (v2_permute v dx dy) D2X = vcoord2 v dx /\ vcoord2 (v2_permute v dx dy) D2Y = vcoord2 v dy).
Proof. exact (fun A p v dx dy => conj (p2_permute_coord p dx dy) (v2_permute_coord v dx dy)). Qed.
Print Assumptions C31_permute_2d.
Theorem C31_axis_2d : forall (A : arith) (d d' : Dimension2),
  vcoord2 (v2_axis d : Vector2 (num A)) d' = if d2_eq d d' then sone else szero.
Proof. exact (fun A d d' => v2_axis_coord d d'). Qed.
Print Assumptions C31_axis_2d.
Example C31_example_2d :
  seq (p2_index (fold_left (fun q w => p2_index_set q (fst w) (snd w (p2_index q (fst w))))
    [(D2X, fun _ => d64 7 0); (D2Y, fun x => sadd x x); (D2X, fun x => sadd x (d64 1 0))] ptA2) D2X) (d64 8 0) = true.
Proof. vm_compute. reflexivity. Qed.

(** C12 *)
Theorem C12_corner_in_range_3d : forall (A : arith) (prof : profile) (b : BoundingBox3 (num A)) (i : N),
  debug_assertions prof = false \/ (i < 8)%N ->
  exists p, bb3_corner prof b i = Ret p /\
    forall d, coord3 p d = if N.testbit i (bit3 d) then coord3 (bb3_max b) d else coord3 (bb3_min b) d.
Proof. exact (fun A => bb3_corner_ok). Qed.
Print Assumptions C12_corner_in_range_3d.
Theorem C12_corner_out_of_range_panics_3d : forall (A : arith) (prof : profile) (b : BoundingBox3 (num A)) (i : N),
  debug_assertions prof = true -> (8 <= i)%N -> bb3_corner prof b i = Panic.
Proof. exact (fun A => bb3_corner_panic). Qed.
Print Assumptions C12_corner_out_of_range_panics_3d.
Theorem C12_corner_out_of_range_release_3d : forall (A : arith) (prof : profile) (b : BoundingBox3 (num A)) (i : N),
  debug_assertions prof = false -> bb3_corner prof b i = bb3_corner prof b (i mod 8).
Proof. exact (fun A => bb3_corner_mod). Qed.
Print Assumptions C12_corner_out_of_range_release_3d.
Theorem C12_corner_inside_3d : forall (A : arith) (prof : profile) (b : BoundingBox3 (num A)) (i : N) p,
  Ordered3 b -> bb3_corner prof b i = Ret p -> In3 p b.
Proof. exact (fun A => bb3_corner_inside (num_OrdLaws A)). Qed.
Print Assumptions C12_corner_inside_3d.
(* every choice of min/max per dimension is the corner of exactly one index *)
Theorem C12_corner_enumerates_3d : forall (c : Dimension3 -> bool),
  exists i, (i < 8)%N /\ (forall d, N.testbit i (bit3 d) = c d) /\
    forall j, (j < 8)%N -> (forall d, N.testbit j (bit3 d) = c d) -> j = i.
Proof. exact bb3_corner_enum. Qed.
Print Assumptions C12_corner_enumerates_3d.
(* a box with min <> max in every dimension has 8 different corners *)
Theorem C12_corners_distinct_3d : forall (A : arith) (prof : profile) (b : BoundingBox3 (num A)) (i j : N),
  (i < 8)%N -> (j < 8)%N -> (forall d, coord3 (bb3_min b) d <> coord3 (bb3_max b) d) ->
  bb3_corner prof b i = bb3_corner prof b j -> i = j.
Proof. exact (fun A => bb3_corner_inj). Qed.
Print Assumptions C12_corners_distinct_3d.
Example C12_example_3d : bb3_corner dev_profile boxA3 8 = Panic /\ bb3_corner dev_profile boxA3 (8 - 1) = Ret (bb3_max boxA3) /\
  bb3_corner release_profile boxA3 8 = Ret (bb3_min boxA3).
Proof. split; [|split]; reflexivity. Qed.

(** C30 *)
Theorem C30_point_compound_assignment_3d : forall (A : arith) (p : Point3 (num A)) (v : Vector3 (num A)) (s : num A),
  p3_add_assign p v = p3_add p v /\ p3_sub_assign p v = p3_sub_v p v /\
  p3_mul_assign p s = p3_mul p s /\ p3_div_assign p s = p3_div p s /\ p3_lmul s p = p3_mul p s.
Proof. exact (fun A p v s => conj eq_refl (conj eq_refl (conj eq_refl (conj eq_refl eq_refl)))). Qed.
Print Assumptions C30_point_compound_assignment_3d.
Theorem C30_vector_compound_assignment_3d : forall (A : arith) (p : Vector3 (num A)) (v : Vector3 (num A)) (s : num A),
  v3_add_assign p v = v3_add p v /\ v3_sub_assign p v = v3_sub p v /\
  v3_mul_assign p s = v3_mul p s /\ v3_div_assign p s = v3_div p s /\ v3_lmul s p = v3_mul p s.
Proof. exact (fun A p v s => conj eq_refl (conj eq_refl (conj eq_refl (conj eq_refl eq_refl)))). Qed.
Print Assumptions C30_vector_compound_assignment_3d.

(** C31: [history] is any list of in-place updates [p[d] = f(p[d])] (a plain write is a constant f) *)
Theorem C31_point_index_history_3d : forall (A : arith) (history : list (Dimension3 * (num A -> num A))) (p : Point3 (num A)) (d : Dimension3),
  p3_index (fold_left (fun q w => p3_index_set q (fst w) (snd w (p3_index q (fst w)))) history p) d
  = replay d3_eq history d (coord3 p d).
Proof. exact (fun A h p d => eq_trans (p3_index_history h p d) (f_equal (replay d3_eq h d) (p3_index_coord p d))). Qed.
Print Assumptions C31_point_index_history_3d.
Theorem C31_vector_index_history_3d : forall (A : arith) (history : list (Dimension3 * (num A -> num A))) (v : Vector3 (num A)) (d : Dimension3),
  v3_index (fold_left (fun q w => v3_index_set q (fst w) (snd w (v3_index q (fst w)))) history v) d
  = replay d3_eq history d (vcoord3 v d).
Proof. exact (fun A h p d => eq_trans (v3_index_history h p d) (f_equal (replay d3_eq h d) (v3_index_coord p d))). Qed.
Print Assumptions C31_vector_index_history_3d.
Theorem C31_dimension_equality_3d : forall a b : Dimension3, d3_eq a b = true <-> a = b.
Proof. exact d3_eq_spec. Qed.
Print Assumptions C31_dimension_equality_3d.
Theorem C31_permute_3d : forall (A : arith) (p : Point3 (num A)) (v : Vector3 (num A)) (dx dy dz : Dimension3),
  (coord3 (p3_permute p dx dy dz) D3X = coord3 p dx /\ coord3 (p3_permute p dx dy dz) D3Y = coord3 p dy /\ coord3 (p3_permute p dx dy dz) D3Z = coord3 p dz) /\
  (vcoord3 (v3_permute v dx dy dz) D3X = vcoord3 v dx /\ vcoord3 (v3_permute v dx dy dz) D3Y = vcoord3 v dy /\ vcoord3 (v3_permute v dx dy dz) D3Z = vcoord3 v dz).
Proof. exact (fun A p v dx dy dz => conj (p3_permute_coord p dx dy dz) (v3_permute_coord v dx dy dz)). Qed.
Print Assumptions C31_permute_3d.
Theorem C31_axis_3d : forall (A : arith) (d d' : Dimension3),
  vcoord3 (v3_axis d : Vector3 (num A)) d' = if d3_eq d d' then sone else szero.
Proof. exact (fun A d d' => v3_axis_coord d d'). Qed.
Print Assumptions C31_axis_3d.
Example C31_example_3d :
  seq (p3_index (fold_left (fun q w => p3_index_set q (fst w) (snd w (p3_index q (fst w))))
    [(D3X, fun _ => d64 7 0); (D3Y, fun x => sadd x x); (D3X, fun x => sadd x (d64 1 0))] ptA3) D3X) (d64 8 0) = true.
Proof. vm_compute. reflexivity. Qed.

(** C30 for matrices *)
Theorem C30_matrix_compound_assignment_3x3 : forall (A : arith) (m : Matrix3x3 (num A)) (s : num A),
  m3_mul_assign m s = m3_muls m s /\ m3_div_assign m s = m3_divs m s /\ m3_lmuls s m = m3_muls m s /\
  m3_comps (m3_muls m s) = map (fun x => smul x s) (m3_comps m) /\
  m3_comps (m3_divs m s) = map (fun x => sdiv x s) (m3_comps m).
Proof. exact (fun A m s => conj eq_refl (conj eq_refl (conj eq_refl (conj eq_refl eq_refl)))). Qed.
Print Assumptions C30_matrix_compound_assignment_3x3.

(** C34 *)
Theorem C34_matrix_history_3x3 : forall (A : arith) (prof : profile) (history : list ((N * N) * (num A -> num A))) (m : Matrix3x3 (num A)),
  (forall w, In w history -> in_range 3 (fst w)) ->
  exists m', run (fun m w => m3_get_mut prof m (fst (fst w)) (snd (fst w)) (snd w)) m history = Ret m' /\
    forall k, in_range 3 k -> exists x, m3_get prof m (fst k) (snd k) = Ret x /\
      m3_get prof m' (fst k) (snd k) = Ret (replay rc_eq history k x).
Proof. exact (fun A prof h m H => m3_history prof h m H). Qed.
Print Assumptions C34_matrix_history_3x3.
Theorem C34_matrix_set_3x3 : forall (A : arith) (prof : profile) (m : Matrix3x3 (num A)) (r c : N) (v : num A), (r < 3)%N -> (c < 3)%N ->
  m3_set prof m r c v = m3_get_mut prof m r c (fun _ => v).
Proof. exact (fun A => m3_set_mut). Qed.
Print Assumptions C34_matrix_set_3x3.
Theorem C34_matrix_new_row_major_3x3 : forall (A : arith) (prof : profile) (a0 a1 a2 a3 a4 a5 a6 a7 a8 d : num A) (r c : N), (r < 3)%N -> (c < 3)%N ->
  m3_get prof (m3_new a0 a1 a2 a3 a4 a5 a6 a7 a8) r c = Ret (nth (N.to_nat (3 * r + c)) [a0; a1; a2; a3; a4; a5; a6; a7; a8] d).
Proof. exact (fun A => m3_get_new). Qed.
Print Assumptions C34_matrix_new_row_major_3x3.
Theorem C34_matrix_extensional_3x3 : forall (A : arith) (prof : profile) (m m' : Matrix3x3 (num A)),
  (forall r c, (r < 3)%N -> (c < 3)%N -> m3_get prof m r c = m3_get prof m' r c) -> m = m'.
Proof. exact (fun A => m3_ext). Qed.
Print Assumptions C34_matrix_extensional_3x3.
Example C34_example_3x3 :
  match (let* m' := run (fun m w => m3_get_mut dev_profile m (fst (fst w)) (snd (fst w)) (snd w)) (m3_identity : Matrix3x3 (num A64))
    [((0, 1), fun _ => d64 7 0); ((2, 2), fun x => sadd x x); ((0, 1), fun x => sadd x (d64 1 0))]%N in
   m3_get dev_profile m' 0 1) with Ret x => seq x (d64 8 0) | Panic => false end = true.
Proof. vm_compute. reflexivity. Qed.

(** C35: with debug assertions every out-of-range index panics; a release build reads another element *)
Theorem C35_out_of_range_panics_3x3 : forall (A : arith) (prof : profile) (m : Matrix3x3 (num A)) (r c : N) (f : num A -> num A) (v : num A),
  debug_assertions prof = true -> (3 <= r \/ 3 <= c)%N ->
  m3_get prof m r c = Panic /\ m3_get_mut prof m r c f = Panic /\ m3_set prof m r c v = Panic.
Proof. exact (fun A => m3_out_of_range_debug). Qed.
Print Assumptions C35_out_of_range_panics_3x3.
Theorem C35_release_index_3x3 : forall (A : arith) (m : Matrix3x3 (num A)) (r c : N) (d : num A),
  m3_get release_profile m r c =
  let i := (((3 * r) mod 2 ^ 32 + c) mod 2 ^ 32)%N in
  if (i <? 9)%N then Ret (nth (N.to_nat i) (m3_comps m) d) else Panic.
Proof. exact (fun A => m3_get_release). Qed.
Print Assumptions C35_release_index_3x3.
Theorem C35_out_of_range_refuted_3x3 : forall (A : arith) (m : Matrix3x3 (num A)),
  m3_get release_profile m 0 5 = m3_get release_profile m 1 2 /\
  (exists x, m3_get release_profile m 0 5 = Ret x) /\
  (* the u32 multiplication wraps: a huge row reads element 2 *)
  (exists x, m3_get release_profile m 1431655766 0 = Ret x).
Proof. exact (fun A m => conj eq_refl (conj (ex_intro _ _ eq_refl) (ex_intro _ _ eq_refl))). Qed.
Print Assumptions C35_out_of_range_refuted_3x3.

(** C36 *)
Theorem C36_transpose_get_3x3 : forall (A : arith) (prof : profile) (m : Matrix3x3 (num A)) (r c : N), (r < 3)%N -> (c < 3)%N ->
  m3_get prof (m3_transpose m) r c = m3_get prof m c r.
Proof. exact (fun A => m3_transpose_get). Qed.
Print Assumptions C36_transpose_get_3x3.
Theorem C36_transpose_involution_3x3 : forall (A : arith) (m : Matrix3x3 (num A)), m3_transpose (m3_transpose m) = m.
Proof. exact (fun A => m3_transpose_invol). Qed.
Print Assumptions C36_transpose_involution_3x3.
Theorem C36_transpose_product_3x3 : forall (A : arith) (m n : Matrix3x3 (num A)),
  m3_transpose (m3_mul m n) = m3_mul (m3_transpose n) (m3_transpose m).
Proof. exact (fun A => m3_transpose_mul). Qed.
Print Assumptions C36_transpose_product_3x3.
Theorem C36_row_times_matrix_3x3 : forall (A : arith) (p : Point2 (num A)) (v : Vector2 (num A)) (m : Matrix3x3 (num A)),
  p2_mul_m3 p m = m3_mul_point (m3_transpose m) p /\ v2_mul_m3 v m = m3_mul_vector (m3_transpose m) v.
Proof. exact (fun A p v m => conj (p2_mul_m3_transpose p m) (v2_mul_m3_transpose v m)). Qed.
Print Assumptions C36_row_times_matrix_3x3.

(** C30 for matrices *)
Theorem C30_matrix_compound_assignment_4x4 : forall (A : arith) (m : Matrix4x4 (num A)) (s : num A),
  m4_mul_assign m s = m4_muls m s /\ m4_div_assign m s = m4_divs m s /\ m4_lmuls s m = m4_muls m s /\
  m4_comps (m4_muls m s) = map (fun x => smul x s) (m4_comps m) /\
  m4_comps (m4_divs m s) = map (fun x => sdiv x s) (m4_comps m).
Proof. exact (fun A m s => conj eq_refl (conj eq_refl (conj eq_refl (conj eq_refl eq_refl)))). Qed.
Print Assumptions C30_matrix_compound_assignment_4x4.

(** C34 *)
Theorem C34_matrix_history_4x4 : forall (A : arith) (prof : profile) (history : list ((N * N) * (num A -> num A))) (m : Matrix4x4 (num A)),
  (forall w, In w history -> in_range 4 (fst w)) ->
  exists m', run (fun m w => m4_get_mut prof m (fst (fst w)) (snd (fst w)) (snd w)) m history = Ret m' /\
    forall k, in_range 4 k -> exists x, m4_get prof m (fst k) (snd k) = Ret x /\
      m4_get prof m' (fst k) (snd k) = Ret (replay rc_eq history k x).
Proof. exact (fun A prof h m H => m4_history prof h m H). Qed.
Print Assumptions C34_matrix_history_4x4.
Theorem C34_matrix_set_4x4 : forall (A : arith) (prof : profile) (m : Matrix4x4 (num A)) (r c : N) (v : num A), (r < 4)%N -> (c < 4)%N ->
  m4_set prof m r c v = m4_get_mut prof m r c (fun _ => v).
Proof. exact (fun A => m4_set_mut). Qed.
Print Assumptions C34_matrix_set_4x4.
Theorem C34_matrix_new_row_major_4x4 : forall (A : arith) (prof : profile) (a0 a1 a2 a3 a4 a5 a6 a7 a8 a9 a10 a11 a12 a13 a14 a15 d : num A) (r c : N), (r < 4)%N -> (c < 4)%N ->
  m4_get prof (m4_new a0 a1 a2 a3 a4 a5 a6 a7 a8 a9 a10 a11 a12 a13 a14 a15) r c = Ret (nth (N.to_nat (4 * r + c)) [a0; a1; a2; a3; a4; a5; a6; a7; a8; a9; a10; a11; a12; a13; a14; a15] d).
Proof. exact (fun A => m4_get_new). Qed.
Print Assumptions C34_matrix_new_row_major_4x4.
Theorem C34_matrix_extensional_4x4 : forall (A : arith) (prof : profile) (m m' : Matrix4x4 (num A)),
  (forall r c, (r < 4)%N -> (c < 4)%N -> m4_get prof m r c = m4_get prof m' r c) -> m = m'.
Proof. exact (fun A => m4_ext). Qed.
Print Assumptions C34_matrix_extensional_4x4.
Example C34_example_4x4 :
  match (let* m' := run (fun m w => m4_get_mut dev_profile m (fst (fst w)) (snd (fst w)) (snd w)) (m4_identity : Matrix4x4 (num A64))
    [((0, 1), fun _ => d64 7 0); ((2, 2), fun x => sadd x x); ((0, 1), fun x => sadd x (d64 1 0))]%N in
   m4_get dev_profile m' 0 1) with Ret x => seq x (d64 8 0) | Panic => false end = true.
Proof. vm_compute. reflexivity. Qed.

(** C35: with debug assertions every out-of-range index panics; a release build reads another element *)
Theorem C35_out_of_range_panics_4x4 : forall (A : arith) (prof : profile) (m : Matrix4x4 (num A)) (r c : N) (f : num A -> num A) (v : num A),
  debug_assertions prof = true -> (4 <= r \/ 4 <= c)%N ->
  m4_get prof m r c = Panic /\ m4_get_mut prof m r c f = Panic /\ m4_set prof m r c v = Panic.
Proof. exact (fun A => m4_out_of_range_debug). Qed.
Print Assumptions C35_out_of_range_panics_4x4.
Theorem C35_release_index_4x4 : forall (A : arith) (m : Matrix4x4 (num A)) (r c : N) (d : num A),
  m4_get release_profile m r c =
  let i := (((4 * r) mod 2 ^ 32 + c) mod 2 ^ 32)%N in
  if (i <? 16)%N then Ret (nth (N.to_nat i) (m4_comps m) d) else Panic.
Proof. exact (fun A => m4_get_release). Qed.
Print Assumptions C35_release_index_4x4.
Theorem C35_out_of_range_refuted_4x4 : forall (A : arith) (m : Matrix4x4 (num A)),
  m4_get release_profile m 0 6 = m4_get release_profile m 1 2 /\
  (exists x, m4_get release_profile m 0 6 = Ret x) /\
  (* the u32 multiplication wraps: a huge row reads element 0 *)
  (exists x, m4_get release_profile m 1073741824 0 = Ret x).
Proof. exact (fun A m => conj eq_refl (conj (ex_intro _ _ eq_refl) (ex_intro _ _ eq_refl))). Qed.
Print Assumptions C35_out_of_range_refuted_4x4.

(** C36 *)
Theorem C36_transpose_get_4x4 : forall (A : arith) (prof : profile) (m : Matrix4x4 (num A)) (r c : N), (r < 4)%N -> (c < 4)%N ->
  m4_get prof (m4_transpose m) r c = m4_get prof m c r.
Proof. exact (fun A => m4_transpose_get). Qed.
Print Assumptions C36_transpose_get_4x4.
Theorem C36_transpose_involution_4x4 : forall (A : arith) (m : Matrix4x4 (num A)), m4_transpose (m4_transpose m) = m.
Proof. exact (fun A => m4_transpose_invol). Qed.
Print Assumptions C36_transpose_involution_4x4.
Theorem C36_transpose_product_4x4 : forall (A : arith) (m n : Matrix4x4 (num A)),
  m4_transpose (m4_mul m n) = m4_mul (m4_transpose n) (m4_transpose m).
Proof. exact (fun A => m4_transpose_mul). Qed.
Print Assumptions C36_transpose_product_4x4.
Theorem C36_row_times_matrix_4x4 : forall (A : arith) (p : Point3 (num A)) (v : Vector3 (num A)) (m : Matrix4x4 (num A)),
  p3_mul_m4 p m = m4_mul_point (m4_transpose m) p /\ v3_mul_m4 v m = m4_mul_vector (m4_transpose m) v.
Proof. exact (fun A p v m => conj (p3_mul_m4_transpose p m) (v3_mul_m4_transpose v m)). Qed.
Print Assumptions C36_row_times_matrix_4x4.

(** C45 *)
Theorem C45_inverse_structural_2d : forall (A : arith) (t u : Transform2 (num A)),
  t2_inverse (t2_inverse t) = t /\
  t2_inverse (t2_and_then t u) = t2_and_then (t2_inverse u) (t2_inverse t) /\
  t2_forward (t2_inverse t) = t2_inv t /\ t2_inv (t2_inverse t) = t2_forward t.
Proof. exact (fun A t u => conj (t2_inverse_invol t) (conj eq_refl (conj eq_refl eq_refl))). Qed.
Print Assumptions C45_inverse_structural_2d.
Theorem C45_transform_by_inverse_2d : forall (A : arith) (t : Transform2 (num A)) (p : Point2 (num A)) (v : Vector2 (num A)),
  t2_transform_point (t2_inverse t) p = m3_mul_point (t2_inv t) p /\
  t2_transform_vector (t2_inverse t) v = m3_mul_vector (t2_inv t) v.
Proof. exact (fun A t p v => conj eq_refl eq_refl). Qed.
Print Assumptions C45_transform_by_inverse_2d.

(** C50 *)
Theorem C50_try_from_2d : forall (A : arith) (m : Matrix3x3 (num A)),
  (forall t, t2_try_from m = Ok t <-> m3_inverse m = Ok (t2_inv t) /\ t2_forward t = m) /\
  (t2_try_from m = Err <-> m3_inverse m = Err).
Proof. exact (fun A => t2_try_from_spec). Qed.
Print Assumptions C50_try_from_2d.

(** C45 *)
Theorem C45_inverse_structural_3d : forall (A : arith) (t u : Transform3 (num A)),
  t3_inverse (t3_inverse t) = t /\
  t3_inverse (t3_and_then t u) = t3_and_then (t3_inverse u) (t3_inverse t) /\
  t3_forward (t3_inverse t) = t3_inv t /\ t3_inv (t3_inverse t) = t3_forward t.
Proof. exact (fun A t u => conj (t3_inverse_invol t) (conj eq_refl (conj eq_refl eq_refl))). Qed.
Print Assumptions C45_inverse_structural_3d.
Theorem C45_transform_by_inverse_3d : forall (A : arith) (t : Transform3 (num A)) (p : Point3 (num A)) (v : Vector3 (num A)),
  t3_transform_point (t3_inverse t) p = m4_mul_point (t3_inv t) p /\
  t3_transform_vector (t3_inverse t) v = m4_mul_vector (t3_inv t) v.
Proof. exact (fun A t p v => conj eq_refl eq_refl). Qed.
Print Assumptions C45_transform_by_inverse_3d.

(** C50 *)
Theorem C50_try_from_3d : forall (A : arith) (prof : profile) (m : Matrix4x4 (num A)),
  (forall t, t3_try_from prof m = Ret (Ok t) <-> m4_inverse prof m = Ret (Ok (t3_inv t)) /\ t3_forward t = m) /\
  (t3_try_from prof m = Ret Err <-> m4_inverse prof m = Ret Err) /\
  t3_try_from prof m <> Panic.
Proof. exact (fun A => t3_try_from_spec). Qed.
Print Assumptions C50_try_from_3d.
