(** Theorems: C76 (a change of units by a power of two is exact).  f32 and f64, every platform. *)
From Coq Require Import Bool NArith ZArith Reals List Lra Lia.
From Flocq Require Import Core.Zaux Core.Raux IEEE754.BinarySingleNaN.
From Verif Require Import Scalar Types Vector2 Vector3 Point2 Point3 Ray BoundingBox2 BoundingBox3 Transform2 Transform3 Float
  XReal Arith SpecOrder SpecStruct SpecFloat SpecReal SpecBox SpecErr SpecSame SpecScale ExVals FloatInv FloatScale.
Import ListNotations.
Local Open Scope R_scope.
(** ** C76: multiplying by a power of two is exact *)
Theorem C76_unit_change_2d : forall (f : format) (P : platform f) (k : Z) (c : num (IEEE f P)) (v : Vector2 (num (IEEE f P))) (p : Point2 (num (IEEE f P))), (Z.abs k <= emax f / 4)%Z -> RealVal c (bpow radix2 k) ->
  (forall d, in_range (emax f / 4) (vcoord2 v d)) -> (forall d, in_range (emax f / 4) (coord2 p d)) ->
  Vtimes2 k v (v2_mul v c) /\ Vtimes2 k v (v2_lmul c v) /\ Vtimes2 (- k) v (v2_div v c) /\ Ptimes2 k p (p2_mul p c) /\ Ptimes2 k p (p2_lmul c p) /\ Ptimes2 (- k) p (p2_div p c) /\
  VsameSign2 v (v2_mul v c).
Proof. exact C76_unit_change_2d_pf. Qed.
Print Assumptions C76_unit_change_2d.
Theorem C76_unit_change_3d : forall (f : format) (P : platform f) (k : Z) (c : num (IEEE f P)) (v : Vector3 (num (IEEE f P))) (p : Point3 (num (IEEE f P))), (Z.abs k <= emax f / 4)%Z -> RealVal c (bpow radix2 k) ->
  (forall d, in_range (emax f / 4) (vcoord3 v d)) -> (forall d, in_range (emax f / 4) (coord3 p d)) ->
  Vtimes3 k v (v3_mul v c) /\ Vtimes3 k v (v3_lmul c v) /\ Vtimes3 (- k) v (v3_div v c) /\ Ptimes3 k p (p3_mul p c) /\ Ptimes3 k p (p3_lmul c p) /\ Ptimes3 (- k) p (p3_div p c) /\
  VsameSign3 v (v3_mul v c).
Proof. exact C76_unit_change_3d_pf. Qed.
Print Assumptions C76_unit_change_3d.
(** ** sums and differences *)
Theorem C76_sums_2d : forall (f : format) (P : platform f) (k : Z) (p q p' q' : Point2 (num (IEEE f P))) (v w v' w' : Vector2 (num (IEEE f P))), (Z.abs k <= emax f / 2)%Z ->
  Prescaled2 (emax f / 4) k p p' -> Prescaled2 (emax f / 4) k q q' -> Vrescaled2 (emax f / 4) k v v' -> Vrescaled2 (emax f / 4) k w w' ->
  Ptimes2 k (p2_add p v) (p2_add p' v') /\ Ptimes2 k (p2_sub_v p v) (p2_sub_v p' v') /\ Vtimes2 k (p2_sub p q) (p2_sub p' q') /\
  Vtimes2 k (v2_add v w) (v2_add v' w') /\ Vtimes2 k (v2_sub v w) (v2_sub v' w').
Proof. exact C76_sums_2d_pf. Qed.
Print Assumptions C76_sums_2d.
Theorem C76_sums_3d : forall (f : format) (P : platform f) (k : Z) (p q p' q' : Point3 (num (IEEE f P))) (v w v' w' : Vector3 (num (IEEE f P))), (Z.abs k <= emax f / 2)%Z ->
  Prescaled3 (emax f / 4) k p p' -> Prescaled3 (emax f / 4) k q q' -> Vrescaled3 (emax f / 4) k v v' -> Vrescaled3 (emax f / 4) k w w' ->
  Ptimes3 k (p3_add p v) (p3_add p' v') /\ Ptimes3 k (p3_sub_v p v) (p3_sub_v p' v') /\ Vtimes3 k (p3_sub p q) (p3_sub p' q') /\
  Vtimes3 k (v3_add v w) (v3_add v' w') /\ Vtimes3 k (v3_sub v w) (v3_sub v' w').
Proof. exact C76_sums_3d_pf. Qed.
Print Assumptions C76_sums_3d.
(** ** dot product, cross product *)
Theorem C76_dot_2d : forall (f : format) (P : platform f) (k l : Z) (v v' w w' : Vector2 (num (IEEE f P))), (Z.abs k <= emax f / 2)%Z -> (Z.abs l <= emax f / 2)%Z ->
  Vrescaled2 (emax f / 4) k v v' -> Vrescaled2 (emax f / 4) l w w' -> times2 (k + l) (v2_dot v w) (v2_dot v' w').
Proof. exact C76_dot_2d_pf. Qed.
Print Assumptions C76_dot_2d.
Theorem C76_dot_3d : forall (f : format) (P : platform f) (k l : Z) (v v' w w' : Vector3 (num (IEEE f P))), (Z.abs k <= emax f / 2)%Z -> (Z.abs l <= emax f / 2)%Z ->
  Vrescaled3 (emax f / 4) k v v' -> Vrescaled3 (emax f / 4) l w w' -> times2 (k + l) (v3_dot v w) (v3_dot v' w').
Proof. exact C76_dot_3d_pf. Qed.
Print Assumptions C76_dot_3d.
Theorem C76_cross : forall (f : format) (P : platform f) (k l : Z) (v v' w w' : Vector3 (num (IEEE f P))), (Z.abs k <= emax f / 2)%Z -> (Z.abs l <= emax f / 2)%Z ->
  Vrescaled3 (emax f / 4) k v v' -> Vrescaled3 (emax f / 4) l w w' -> Vtimes3 (k + l) (v3_cross v w) (v3_cross v' w').
Proof. exact C76_cross_pf. Qed.
Print Assumptions C76_cross.
(** ** lengths, distances, normalized vectors *)
Theorem C76_length_2d : forall (f : format) (P : platform f) (k : Z) (v v' : Vector2 (num (IEEE f P))) (p p' q q' : Point2 (num (IEEE f P))), (Z.abs k <= emax f / 2)%Z ->
  Vrescaled2 (emax f / 4) k v v' -> Prescaled2 (emax f / 4) k p p' -> Prescaled2 (emax f / 4) k q q' ->
  times2 k (v2_length v) (v2_length v') /\ times2 k (p2_distance p q) (p2_distance p' q').
Proof. exact C76_length_2d_pf. Qed.
Print Assumptions C76_length_2d.
Theorem C76_length_3d : forall (f : format) (P : platform f) (k : Z) (v v' : Vector3 (num (IEEE f P))) (p p' q q' : Point3 (num (IEEE f P))), (Z.abs k <= emax f / 2)%Z ->
  Vrescaled3 (emax f / 4) k v v' -> Prescaled3 (emax f / 4) k p p' -> Prescaled3 (emax f / 4) k q q' ->
  times2 k (v3_length v) (v3_length v') /\ times2 k (p3_distance p q) (p3_distance p' q').
Proof. exact C76_length_3d_pf. Qed.
Print Assumptions C76_length_3d.
Theorem C76_normalize_2d : forall (f : format) (P : platform f) (k : Z) (v v' : Vector2 (num (IEEE f P))), (Z.abs k <= emax f / 2)%Z -> Vrescaled2 (emax f / 4) k v v' ->
  (exists d, real_of (vcoord2 v d) <> 0) -> VEq2 (v2_normalize v') (v2_normalize v).
Proof. exact C76_normalize_2d_pf. Qed.
Print Assumptions C76_normalize_2d.
Theorem C76_normalize_3d : forall (f : format) (P : platform f) (k : Z) (v v' : Vector3 (num (IEEE f P))), (Z.abs k <= emax f / 2)%Z -> Vrescaled3 (emax f / 4) k v v' ->
  (exists d, real_of (vcoord3 v d) <> 0) -> VEq3 (v3_normalize v') (v3_normalize v).
Proof. exact C76_normalize_3d_pf. Qed.
Print Assumptions C76_normalize_3d.
(** ** comparisons give the same answer in both units *)
Theorem C76_comparisons_2d : forall (f : format) (P : platform f) (k : Z) (v v' w w' : Vector2 (num (IEEE f P))) (p p' q q' r r' : Point2 (num (IEEE f P))), (Z.abs k <= emax f / 2)%Z ->
  Vrescaled2 (emax f / 4) k v v' -> Vrescaled2 (emax f / 4) k w w' -> Prescaled2 (emax f / 4) k p p' -> Prescaled2 (emax f / 4) k q q' -> Prescaled2 (emax f / 4) k r r' ->
  v2_is_shorter_than v' w' = v2_is_shorter_than v w /\ v2_is_longer_than v' w' = v2_is_longer_than v w /\
  p2_is_closer_to p' q' r' = p2_is_closer_to p q r /\ p2_is_farther_from p' q' r' = p2_is_farther_from p q r /\
  v2_max_dimension v' = v2_max_dimension v /\ v2_min_dimension v' = v2_min_dimension v.
Proof. exact C76_comparisons_2d_pf. Qed.
Print Assumptions C76_comparisons_2d.
Theorem C76_comparisons_3d : forall (f : format) (P : platform f) (k : Z) (v v' w w' : Vector3 (num (IEEE f P))) (p p' q q' r r' : Point3 (num (IEEE f P))), (Z.abs k <= emax f / 2)%Z ->
  Vrescaled3 (emax f / 4) k v v' -> Vrescaled3 (emax f / 4) k w w' -> Prescaled3 (emax f / 4) k p p' -> Prescaled3 (emax f / 4) k q q' -> Prescaled3 (emax f / 4) k r r' ->
  v3_is_shorter_than v' w' = v3_is_shorter_than v w /\ v3_is_longer_than v' w' = v3_is_longer_than v w /\
  p3_is_closer_to p' q' r' = p3_is_closer_to p q r /\ p3_is_farther_from p' q' r' = p3_is_farther_from p q r /\
  v3_max_dimension v' = v3_max_dimension v /\ v3_min_dimension v' = v3_min_dimension v.
Proof. exact C76_comparisons_3d_pf. Qed.
Print Assumptions C76_comparisons_3d.
(** ** rays and boxes *)
Theorem C76_ray_at_2d : forall (f : format) (P : platform f) (k : Z) (r r' : Ray2 (num (IEEE f P))) (t : num (IEEE f P)), (Z.abs k <= emax f / 2)%Z ->
  Prescaled2 (emax f / 4) k (r2_origin r) (r2_origin r') -> Vrescaled2 (emax f / 4) k (r2_direction r) (r2_direction r') -> in_range (emax f / 4) t ->
  Ptimes2 k (r2_at r t) (r2_at r' t).
Proof. exact C76_ray_at_2d_pf. Qed.
Print Assumptions C76_ray_at_2d.
Theorem C76_ray_at_3d : forall (f : format) (P : platform f) (k : Z) (r r' : Ray3 (num (IEEE f P))) (t : num (IEEE f P)), (Z.abs k <= emax f / 2)%Z ->
  Prescaled3 (emax f / 4) k (r3_origin r) (r3_origin r') -> Vrescaled3 (emax f / 4) k (r3_direction r) (r3_direction r') -> in_range (emax f / 4) t ->
  Ptimes3 k (r3_at r t) (r3_at r' t).
Proof. exact C76_ray_at_3d_pf. Qed.
Print Assumptions C76_ray_at_3d.
Theorem C76_box_extent_center_2d : forall (f : format) (P : platform f) (k : Z) (b b' : BoundingBox2 (num (IEEE f P))), (Z.abs k <= emax f / 2)%Z -> Brescaled2 (emax f / 4) k b b' ->
  (forall d, times2 k (bb2_extent b d) (bb2_extent b' d)) /\ Vtimes2 k (bb2_diagonal b) (bb2_diagonal b') /\ Ptimes2 k (bb2_center b) (bb2_center b').
Proof. exact C76_box_extent_center_2d_pf. Qed.
Print Assumptions C76_box_extent_center_2d.
Theorem C76_box_extent_center_3d : forall (f : format) (P : platform f) (k : Z) (b b' : BoundingBox3 (num (IEEE f P))), (Z.abs k <= emax f / 2)%Z -> Brescaled3 (emax f / 4) k b b' ->
  (forall d, times2 k (bb3_extent b d) (bb3_extent b' d)) /\ Vtimes3 k (bb3_diagonal b) (bb3_diagonal b') /\ Ptimes3 k (bb3_center b) (bb3_center b').
Proof. exact C76_box_extent_center_3d_pf. Qed.
Print Assumptions C76_box_extent_center_3d.
Theorem C76_area_2d : forall (f : format) (P : platform f) (k : Z) (b b' : BoundingBox2 (num (IEEE f P))), (Z.abs k <= emax f / 2)%Z -> Brescaled2 (emax f / 4) k b b' -> times2 (k + k) (bb2_area b) (bb2_area b').
Proof. exact C76_area_2d_pf. Qed.
Print Assumptions C76_area_2d.
Theorem C76_volume_surface_3d : forall (f : format) (P : platform f) (k : Z) (b b' : BoundingBox3 (num (IEEE f P))), (Z.abs k <= emax f / 3)%Z -> Brescaled3 (emax f / 6) k b b' ->
  times2 (k + k + k) (bb3_volume b) (bb3_volume b') /\ times2 (k + k) (bb3_surface_area b) (bb3_surface_area b').
Proof. exact C76_volume_surface_3d_pf. Qed.
Print Assumptions C76_volume_surface_3d.
(** ** the ray-box test: positions in units that differ by 2^k, direction by 2^l: the reported range is scaled by 2^(k - l); in particular it is the same range when everything is rescaled alike *)
Theorem C76_intersect_ray_2d : forall (f : format) (P : platform f) (k l : Z) (b b' : BoundingBox2 (num (IEEE f P))) (r r' : Ray2 (num (IEEE f P))), (Z.abs k <= emax f / 6)%Z -> (Z.abs l <= emax f / 6)%Z ->
  Brescaled2 (emax f / 6) k b b' -> Prescaled2 (emax f / 6) k (r2_origin r) (r2_origin r') -> Vrescaled2 (emax f / 6) l (r2_direction r) (r2_direction r') -> VsameSign2 (r2_direction r) (r2_direction r') ->
  match bb2_intersect_ray b r, bb2_intersect_ray b' r' with
  | Some (s, e), Some (s', e') => times2x (k - l) s s' /\ times2x (k - l) e e' | None, None => True | _, _ => False end.
Proof. exact C76_intersect_ray_2d_pf. Qed.
Print Assumptions C76_intersect_ray_2d.
Theorem C76_intersect_ray_3d : forall (f : format) (P : platform f) (k l : Z) (b b' : BoundingBox3 (num (IEEE f P))) (r r' : Ray3 (num (IEEE f P))), (Z.abs k <= emax f / 6)%Z -> (Z.abs l <= emax f / 6)%Z ->
  Brescaled3 (emax f / 6) k b b' -> Prescaled3 (emax f / 6) k (r3_origin r) (r3_origin r') -> Vrescaled3 (emax f / 6) l (r3_direction r) (r3_direction r') -> VsameSign3 (r3_direction r) (r3_direction r') ->
  match bb3_intersect_ray b r, bb3_intersect_ray b' r' with
  | Some (s, e), Some (s', e') => times2x (k - l) s s' /\ times2x (k - l) e e' | None, None => True | _, _ => False end.
Proof. exact C76_intersect_ray_3d_pf. Qed.
Print Assumptions C76_intersect_ray_3d.
Theorem C76_matrix_vector_2d : forall (f : format) (P : platform f) (k : Z) (m : Matrix3x3 (num (IEEE f P))) (v v' : Vector2 (num (IEEE f P))), (Z.abs k <= emax f / 2)%Z ->
  Forall (in_range (emax f / 4)) (m3_comps m) -> Vrescaled2 (emax f / 4) k v v' -> Vtimes2 k (m3_mul_vector m v) (m3_mul_vector m v').
Proof. exact C76_matrix_vector_2d_pf. Qed.
Print Assumptions C76_matrix_vector_2d.
Theorem C76_affine_point_2d : forall (f : format) (P : platform f) (k : Z) (m m' : Matrix3x3 (num (IEEE f P))) (p p' : Point2 (num (IEEE f P))), (Z.abs k <= emax f / 2)%Z -> Affine3x3 m -> Affine3x3 m' ->
  m3_0 m' = m3_0 m /\ m3_1 m' = m3_1 m /\ m3_3 m' = m3_3 m /\ m3_4 m' = m3_4 m -> Forall (in_range (emax f / 4)) [m3_0 m; m3_1 m; m3_3 m; m3_4 m] ->
  rescaled (emax f / 4) k (m3_2 m) (m3_2 m') -> rescaled (emax f / 4) k (m3_5 m) (m3_5 m') -> Prescaled2 (emax f / 4) k p p' ->
  Ptimes2 k (m3_mul_point m p) (m3_mul_point m' p').
Proof. exact C76_affine_point_2d_pf. Qed.
Print Assumptions C76_affine_point_2d.
Theorem C76_matrix_vector_3d : forall (f : format) (P : platform f) (k : Z) (m : Matrix4x4 (num (IEEE f P))) (v v' : Vector3 (num (IEEE f P))), (Z.abs k <= emax f / 2)%Z ->
  Forall (in_range (emax f / 4)) (m4_comps m) -> Vrescaled3 (emax f / 4) k v v' -> Vtimes3 k (m4_mul_vector m v) (m4_mul_vector m v').
Proof. exact C76_matrix_vector_3d_pf. Qed.
Print Assumptions C76_matrix_vector_3d.
Theorem C76_affine_point_3d : forall (f : format) (P : platform f) (k : Z) (m m' : Matrix4x4 (num (IEEE f P))) (p p' : Point3 (num (IEEE f P))), (Z.abs k <= emax f / 2)%Z -> Affine4x4 m -> Affine4x4 m' ->
  m4_0 m' = m4_0 m /\ m4_1 m' = m4_1 m /\ m4_2 m' = m4_2 m /\ m4_4 m' = m4_4 m /\ m4_5 m' = m4_5 m /\ m4_6 m' = m4_6 m /\ m4_8 m' = m4_8 m /\ m4_9 m' = m4_9 m /\ m4_10 m' = m4_10 m -> Forall (in_range (emax f / 4)) [m4_0 m; m4_1 m; m4_2 m; m4_4 m; m4_5 m; m4_6 m; m4_8 m; m4_9 m; m4_10 m] ->
  rescaled (emax f / 4) k (m4_3 m) (m4_3 m') -> rescaled (emax f / 4) k (m4_7 m) (m4_7 m') -> rescaled (emax f / 4) k (m4_11 m) (m4_11 m') -> Prescaled3 (emax f / 4) k p p' ->
  Ptimes3 k (m4_mul_point m p) (m4_mul_point m' p').
Proof. exact C76_affine_point_3d_pf. Qed.
Print Assumptions C76_affine_point_3d.
(* the hypotheses are met: lengths in metres and in units of 2^-10 m; the ray along the x axis has zeros in its direction *)
Lemma ex_rescaled (n k m : Z) : (Z.abs n <= 2 ^ 10)%Z -> (0 <= k <= 10)%Z -> (m = 2 ^ k * n)%Z -> Finite (d64 n 0) -> Finite (d64 m 0) -> rescaled (f := F64) (P := platform0 F64) (emax F64 / 6) k (d64 n 0) (d64 m 0).
Proof.
  intros H K -> F1 F2. assert (P0 : (0 < 2 ^ k <= 2 ^ 10)%Z) by (split; [apply Z.pow_pos_nonneg; lia | apply Z.pow_le_mono_r; lia]). change (2 ^ 10)%Z with 1024%Z in *.
  assert (B : (Z.abs (2 ^ k * n) <= 2 ^ 20)%Z) by (change (2 ^ 20)%Z with (1024 * 1024)%Z; rewrite Z.abs_mul; nia).
  assert (R : forall m, (Z.abs m <= 2 ^ 20)%Z -> real_of (A := A64) (d64 m 0) = IZR m) by (intros m L; apply real_flit; change (2 ^ prec F64)%Z with 9007199254740992%Z; change (2 ^ 20)%Z with 1048576%Z in L; lia).
  assert (I : forall m, (Z.abs m <= 2 ^ 20)%Z -> Finite (d64 m 0) -> in_range (f := F64) (P := platform0 F64) (emax F64 / 6) (d64 m 0)).
  { intros m L Fm. split; [exact Fm|]. fold A64. rewrite R by assumption. destruct (Z.eq_dec m 0) as [->|N]; [now left|]. right. rewrite <- abs_IZR. split.
    - apply Rle_trans with 1; [change 1 with (bpow radix2 0); apply bpow_le; vm_compute; congruence | apply IZR_le; lia].
    - apply Rle_trans with (bpow radix2 20); [rewrite <- (IZR_Zpower radix2) by lia; apply IZR_le; exact L | apply bpow_le; vm_compute; congruence]. }
  change (2 ^ 20)%Z with 1048576%Z in *.
  split; [apply I; [lia | assumption]|]. split; [now apply I|]. split; [exact F1|]. split; [exact F2|]. fold A64. rewrite !R by lia. rewrite mult_IZR, (IZR_Zpower radix2) by lia. ring.
Qed.
Example C76_example : let v := mkVector3 (d64 3 0) (d64 (-4) 0) (d64 0 0) in let v' := mkVector3 (d64 3072 0) (d64 (-4096) 0) (d64 0 0) in
  let b := mkBB2 (mkPoint2 (d64 1 0) (d64 (-1) 0)) (mkPoint2 (d64 7 0) (d64 5 0)) in let b' := mkBB2 (mkPoint2 (d64 1024 0) (d64 (-1024) 0)) (mkPoint2 (d64 7168 0) (d64 5120 0)) in
  let r := mkRay2 (mkPoint2 (d64 (-5) 0) (d64 2 0)) (mkVector2 (d64 3 0) (d64 0 0)) in let r' := mkRay2 (mkPoint2 (d64 (-5120) 0) (d64 2048 0)) (mkVector2 (d64 6 0) (d64 0 0)) in
  Vrescaled3 (f := F64) (P := platform0 F64) (emax F64 / 6) 10 v v' /\ Brescaled2 (f := F64) (P := platform0 F64) (emax F64 / 6) 10 b b' /\
  Prescaled2 (f := F64) (P := platform0 F64) (emax F64 / 6) 10 (r2_origin r) (r2_origin r') /\ Vrescaled2 (f := F64) (P := platform0 F64) (emax F64 / 6) 1 (r2_direction r) (r2_direction r') /\
  VsameSign2 (f := F64) (P := platform0 F64) (r2_direction r) (r2_direction r') /\ (exists d, real_of (A := A64) (vcoord3 v d) <> 0) /\
  match bb2_intersect_ray b r, bb2_intersect_ray b' r' with Some (s, e), Some (s', e') => seq s (d64 2 0) && seq e (d64 4 0) && seq s' (d64 1024 0) && seq e' (d64 2048 0) = true | _, _ => False end.
Proof.
  cbv zeta. cbn [r2_origin r2_direction].
  split; [intros []; cbn [vcoord3 vcoord2 coord2 v2x v2y v3x v3y v3z p2x p2y bb2_min bb2_max]; apply (ex_rescaled _ 10); reflexivity || (vm_compute; split; congruence) || (vm_compute; congruence)|].
  split; [split; intros []; cbn [vcoord3 vcoord2 coord2 v2x v2y v3x v3y v3z p2x p2y bb2_min bb2_max]; apply (ex_rescaled _ 10); reflexivity || (vm_compute; split; congruence) || (vm_compute; congruence)|].
  split; [intros []; cbn [vcoord3 vcoord2 coord2 v2x v2y v3x v3y v3z p2x p2y bb2_min bb2_max]; apply (ex_rescaled _ 10); reflexivity || (vm_compute; split; congruence) || (vm_compute; congruence)|].
  split; [intros []; cbn [vcoord3 vcoord2 coord2 v2x v2y v3x v3y v3z p2x p2y bb2_min bb2_max]; apply (ex_rescaled _ 1); reflexivity || (vm_compute; split; congruence) || (vm_compute; congruence)|].
  split; [intros []; reflexivity|].
  split; [exists D3X; cbn [vcoord3 v3x]; replace (real_of (A := A64) (d64 3 0)) with 3; [lra | symmetry; apply real_flit; reflexivity]|].
  vm_compute. reflexivity.
Qed.
