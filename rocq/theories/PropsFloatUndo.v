(** Theorems: C82 (undoing a transform in floating point).
    [A] ranges over f32 and f64 on every platform, and exact reals (where unit_roundoff and min_subnormal are 0). *)
From Coq Require Import Bool NArith ZArith Reals List Lra Lia.
From Verif Require Import Scalar Types Vector2 Vector3 Point2 Point3 Ray BoundingBox2 BoundingBox3 Transform2 Transform3 Float
  XReal Arith SpecOrder SpecStruct SpecFloat SpecReal SpecErr SpecSame SpecChain SpecUndo SpecInv ExVals FloatUndo.
Import ListNotations.
Local Open Scope R_scope.
(** * C82: undoing a transform *)
(** Any affine transform: p sent through t and back through t.inverse() differs from p by at most the defect of the two stored matrices, plus rounding *)
Theorem C82_undo_point_2d : forall (A : arith) (t : Transform2 (num A)) (p : Point2 (num A)) (d : Dimension2),
  let r := t2_transform_point (t2_inverse t) (t2_transform_point t p) in let u := unit_roundoff A in
  let F := ent3 (RM3 (t2_forward t)) in let G := ent3 (RM3 (t2_forward (t2_inverse t))) in let P := hom2 (absP2 (RP2 p)) in let i := dim2_index d in
  Affine3x3 (t2_forward t) -> Affine3x3 (t2_forward (t2_inverse t)) -> Finite2 r ->
  Rabs (real_of (coord2 r d) - real_of (coord2 p d)) <= mat_apply 3 (undo_defect 3 G F) P i +
  (((1 + u) ^ (2 * 3) - 1) * mat_apply 3 (mat_mul 3 (mat_abs G) (mat_abs F)) P i + 2 * min_subnormal A * ((1 + u) ^ 3 * sum_n 3 (fun k => mat_abs G i k) + 1)).
Proof. exact C82_undo_point_2d_pf. Qed.
Print Assumptions C82_undo_point_2d.
Theorem C82_undo_point_3d : forall (A : arith) (t : Transform3 (num A)) (p : Point3 (num A)) (d : Dimension3),
  let r := t3_transform_point (t3_inverse t) (t3_transform_point t p) in let u := unit_roundoff A in
  let F := ent4 (RM4 (t3_forward t)) in let G := ent4 (RM4 (t3_forward (t3_inverse t))) in let P := hom3 (absP3 (RP3 p)) in let i := dim3_index d in
  Affine4x4 (t3_forward t) -> Affine4x4 (t3_forward (t3_inverse t)) -> Finite3 r ->
  Rabs (real_of (coord3 r d) - real_of (coord3 p d)) <= mat_apply 4 (undo_defect 4 G F) P i +
  (((1 + u) ^ (2 * 4) - 1) * mat_apply 4 (mat_mul 4 (mat_abs G) (mat_abs F)) P i + 3 * min_subnormal A * ((1 + u) ^ 4 * sum_n 4 (fun k => mat_abs G i k) + 1)).
Proof. exact C82_undo_point_3d_pf. Qed.
Print Assumptions C82_undo_point_3d.
Theorem C82_undo_vector_2d : forall (A : arith) (t : Transform2 (num A)) (v : Vector2 (num A)) (d : Dimension2),
  let r := t2_transform_vector (t2_inverse t) (t2_transform_vector t v) in let u := unit_roundoff A in
  let F := ent3 (RM3 (t2_forward t)) in let G := ent3 (RM3 (t2_forward (t2_inverse t))) in let P := dir2 (absV2 (RV2 v)) in let i := dim2_index d in
  Affine3x3 (t2_forward t) -> Affine3x3 (t2_forward (t2_inverse t)) -> VFinite2 r ->
  Rabs (real_of (vcoord2 r d) - real_of (vcoord2 v d)) <= mat_apply 3 (undo_defect 3 G F) P i +
  (((1 + u) ^ (2 * 3) - 1) * mat_apply 3 (mat_mul 3 (mat_abs G) (mat_abs F)) P i + 2 * min_subnormal A * ((1 + u) ^ 3 * sum_n 3 (fun k => mat_abs G i k) + 1)).
Proof. exact C82_undo_vector_2d_pf. Qed.
Print Assumptions C82_undo_vector_2d.
Theorem C82_undo_vector_3d : forall (A : arith) (t : Transform3 (num A)) (v : Vector3 (num A)) (d : Dimension3),
  let r := t3_transform_vector (t3_inverse t) (t3_transform_vector t v) in let u := unit_roundoff A in
  let F := ent4 (RM4 (t3_forward t)) in let G := ent4 (RM4 (t3_forward (t3_inverse t))) in let P := dir3 (absV3 (RV3 v)) in let i := dim3_index d in
  Affine4x4 (t3_forward t) -> Affine4x4 (t3_forward (t3_inverse t)) -> VFinite3 r ->
  Rabs (real_of (vcoord3 r d) - real_of (vcoord3 v d)) <= mat_apply 4 (undo_defect 4 G F) P i +
  (((1 + u) ^ (2 * 4) - 1) * mat_apply 4 (mat_mul 4 (mat_abs G) (mat_abs F)) P i + 3 * min_subnormal A * ((1 + u) ^ 4 * sum_n 4 (fun k => mat_abs G i k) + 1)).
Proof. exact C82_undo_vector_3d_pf. Qed.
Print Assumptions C82_undo_vector_3d.
(** The defect is 0 for translations: the stored matrices are exact inverses of each other *)
Theorem C82_translate_defect_2d : forall (A : arith) (v : Vector2 (num A)), VFinite2 v -> let t := t2_translate v in
  forall r c, (r < 3)%nat -> (c < 3)%nat -> undo_defect 3 (ent3 (RM3 (t2_forward (t2_inverse t)))) (ent3 (RM3 (t2_forward t))) r c = 0.
Proof. exact C82_translate_defect_2d_pf. Qed.
Print Assumptions C82_translate_defect_2d.
Theorem C82_translate_defect_3d : forall (A : arith) (v : Vector3 (num A)), VFinite3 v -> let t := t3_translate v in
  forall r c, (r < 4)%nat -> (c < 4)%nat -> undo_defect 4 (ent4 (RM4 (t3_forward (t3_inverse t)))) (ent4 (RM4 (t3_forward t))) r c = 0.
Proof. exact C82_translate_defect_3d_pf. Qed.
Print Assumptions C82_translate_defect_3d.
(** A translation undone: each coordinate is off by at most about one rounding of p + v and one of p *)
Theorem C82_undo_translate_2d : forall (A : arith) (v : Vector2 (num A)) (p : Point2 (num A)) (d : Dimension2), let t := t2_translate v in let u := unit_roundoff A in
  let r := t2_transform_point (t2_inverse t) (t2_transform_point t p) in VFinite2 v -> Finite2 p -> Finite2 r ->
  Rabs (real_of (coord2 r d) - real_of (coord2 p d)) <= u * ((1 + u) * Rabs (real_of (coord2 p d) + real_of (vcoord2 v d)) + Rabs (real_of (coord2 p d))).
Proof. exact C82_undo_translate_2d_pf. Qed.
Print Assumptions C82_undo_translate_2d.
Theorem C82_undo_translate_3d : forall (A : arith) (v : Vector3 (num A)) (p : Point3 (num A)) (d : Dimension3), let t := t3_translate v in let u := unit_roundoff A in
  let r := t3_transform_point (t3_inverse t) (t3_transform_point t p) in VFinite3 v -> Finite3 p -> Finite3 r ->
  Rabs (real_of (coord3 r d) - real_of (coord3 p d)) <= u * ((1 + u) * Rabs (real_of (coord3 p d) + real_of (vcoord3 v d)) + Rabs (real_of (coord3 p d))).
Proof. exact C82_undo_translate_3d_pf. Qed.
Print Assumptions C82_undo_translate_3d.
(** A scaling undone: three roundings per coordinate, and underflow where s is tiny or s * p is *)
Theorem C82_undo_scale_2d : forall (A : arith) (sx sy : num A) (p : Point2 (num A)) (d : Dimension2), let t := t2_scale sx sy in let u := unit_roundoff A in
  let s := real_of (match d with D2X => sx | D2Y => sy end) in let x := real_of (coord2 p d) in
  let r := t2_transform_point (t2_inverse t) (t2_transform_point t p) in
  Finite sx -> Finite sy -> Finite (srecip sx) -> Finite (srecip sy) -> Finite2 p -> Finite2 r ->
  Rabs (real_of (coord2 r d) - x) <= ((1 + u) ^ 3 - 1) * Rabs x + min_subnormal A * ((1 + u) ^ 2 * (Rabs (s * x) + / Rabs s) + 2).
Proof. exact C82_undo_scale_2d_pf. Qed.
Print Assumptions C82_undo_scale_2d.
Theorem C82_undo_scale_3d : forall (A : arith) (sx sy sz : num A) (p : Point3 (num A)) (d : Dimension3), let t := t3_scale sx sy sz in let u := unit_roundoff A in
  let s := real_of (match d with D3X => sx | D3Y => sy | D3Z => sz end) in let x := real_of (coord3 p d) in
  let r := t3_transform_point (t3_inverse t) (t3_transform_point t p) in
  Finite sx -> Finite sy -> Finite sz -> Finite (srecip sx) -> Finite (srecip sy) -> Finite (srecip sz) -> Finite3 p -> Finite3 r ->
  Rabs (real_of (coord3 r d) - x) <= ((1 + u) ^ 3 - 1) * Rabs x + min_subnormal A * ((1 + u) ^ 2 * (Rabs (s * x) + / Rabs s) + 2).
Proof. exact C82_undo_scale_3d_pf. Qed.
Print Assumptions C82_undo_scale_3d.
(** The defect of a composed transform: those of its parts, the second seen through the first, plus the rounding of the two matrix products *)
Theorem C82_and_then_defect_2d : forall (A : arith) (t1 t2 : Transform2 (num A)) (r c : nat), (r < 3)%nat -> (c < 3)%nat ->
  let t := t2_and_then t1 t2 in let u := unit_roundoff A in let e := 3 * min_subnormal A in
  let F := ent3 (RM3 (t2_forward t)) in let G := ent3 (RM3 (t2_forward (t2_inverse t))) in
  let F1 := ent3 (RM3 (t2_forward t1)) in let G1 := ent3 (RM3 (t2_forward (t2_inverse t1))) in
  let F2 := ent3 (RM3 (t2_forward t2)) in let G2 := ent3 (RM3 (t2_forward (t2_inverse t2))) in
  let V := mat_mul 3 (mat_abs G1) (mat_abs G2) in let W := mat_mul 3 (mat_abs F2) (mat_abs F1) in
  MFinite3 (t2_forward t) -> MFinite3 (t2_forward (t2_inverse t)) ->
  undo_defect 3 G F r c <= undo_defect 3 G1 F1 r c + mat_mul 3 (mat_mul 3 (mat_abs G1) (undo_defect 3 G2 F2)) (mat_abs F1) r c +
    ((1 + u) ^ (2 * 3) - 1) * mat_mul 3 V W r c + e * ((1 + u) ^ 3 * (sum_n 3 (fun k => V r k) + sum_n 3 (fun k => W k c)) + 3 * e).
Proof. exact C82_and_then_defect_2d_pf. Qed.
Print Assumptions C82_and_then_defect_2d.
Theorem C82_and_then_defect_3d : forall (A : arith) (t1 t2 : Transform3 (num A)) (r c : nat), (r < 4)%nat -> (c < 4)%nat ->
  let t := t3_and_then t1 t2 in let u := unit_roundoff A in let e := 4 * min_subnormal A in
  let F := ent4 (RM4 (t3_forward t)) in let G := ent4 (RM4 (t3_forward (t3_inverse t))) in
  let F1 := ent4 (RM4 (t3_forward t1)) in let G1 := ent4 (RM4 (t3_forward (t3_inverse t1))) in
  let F2 := ent4 (RM4 (t3_forward t2)) in let G2 := ent4 (RM4 (t3_forward (t3_inverse t2))) in
  let V := mat_mul 4 (mat_abs G1) (mat_abs G2) in let W := mat_mul 4 (mat_abs F2) (mat_abs F1) in
  MFinite4 (t3_forward t) -> MFinite4 (t3_forward (t3_inverse t)) ->
  undo_defect 4 G F r c <= undo_defect 4 G1 F1 r c + mat_mul 4 (mat_mul 4 (mat_abs G1) (undo_defect 4 G2 F2)) (mat_abs F1) r c +
    ((1 + u) ^ (2 * 4) - 1) * mat_mul 4 V W r c + e * ((1 + u) ^ 4 * (sum_n 4 (fun k => V r k) + sum_n 4 (fun k => W k c)) + 4 * e).
Proof. exact C82_and_then_defect_3d_pf. Qed.
Print Assumptions C82_and_then_defect_3d.
(** The defect of a transform made by try_from: the error of the computed inverse times the matrix *)
Theorem C82_try_from_defect_2d : forall (A : arith) (m : Matrix3x3 (num A)) (t : Transform2 (num A)) (B : R), Forall (fun x => Rabs (real_of x) <= B) (m3_comps m) ->
  t2_try_from m = Ok t -> let F := ent3 (RM3 (t2_forward t)) in let G := ent3 (RM3 (t2_forward (t2_inverse t))) in
  MFinite3 (t2_forward (t2_inverse t)) -> (exists r c, (r < 3)%nat /\ (c < 3)%nat /\ G r c <> 0) ->
  let M := ent3 (RM3 m) in let u := unit_roundoff A in let h := min_subnormal A in
  let E := ((1 + u) ^ 7 - 1) * mat_perm 3 (mat_abs M) + 6 * h * (B + 1) in E < Rabs (mat_det 3 M) ->
  exists N : matrix, mat_eq 3 (mat_mul 3 M N) mat_id /\ mat_eq 3 (mat_mul 3 N M) mat_id /\
  forall r c, (r < 3)%nat -> (c < 3)%nat ->
    undo_defect 3 G F r c <= mat_mul 3 (fun r k => quotient_error (((1 + u) ^ 3 - 1) * cof_size 3 M r k + 2 * h) E h (mat_det 3 M) (N r k)) (mat_abs M) r c.
Proof. exact C82_try_from_defect_2d_pf. Qed.
Print Assumptions C82_try_from_defect_2d.
Theorem C82_try_from_defect_3d : forall (A : arith) (prof : profile) (m : Matrix4x4 (num A)) (t : Transform3 (num A)) (B : R), Forall (fun x => Rabs (real_of x) <= B) (m4_comps m) ->
  t3_try_from prof m = Ret (Ok t) -> let F := ent4 (RM4 (t3_forward t)) in let G := ent4 (RM4 (t3_forward (t3_inverse t))) in
  MFinite4 (t3_forward (t3_inverse t)) -> (exists r c, (r < 4)%nat /\ (c < 4)%nat /\ G r c <> 0) ->
  let M := ent4 (RM4 m) in let u := unit_roundoff A in let h := min_subnormal A in
  let E := ((1 + u) ^ 11 - 1) * mat_perm 4 (mat_abs M) + h * (24 * B * (B + 1) + 4) in E < Rabs (mat_det 4 M) ->
  exists N : matrix, mat_eq 4 (mat_mul 4 M N) mat_id /\ mat_eq 4 (mat_mul 4 N M) mat_id /\
  forall r c, (r < 4)%nat -> (c < 4)%nat ->
    undo_defect 4 G F r c <= mat_mul 4 (fun r k => quotient_error (((1 + u) ^ 8 - 1) * cof_size 4 M r k + 6 * h * (B + 1)) E h (mat_det 4 M) (N r k)) (mat_abs M) r c.
Proof. exact C82_try_from_defect_3d_pf. Qed.
Print Assumptions C82_try_from_defect_3d.
(* the hypotheses are met in f64: translation by (0.1, 2^60, -3) (rounded values), scaling by 3, 5, 7, and their composition; and undoing is not exact in general *)
Example C82_example : let v := mkVector3 (d64 3602879701896397 (-55)) (d64 1 60) (nd64 3 0) : Vector3 (num A64) in let t := t3_translate v in let s := t3_scale (d64 3 0) (d64 5 0) (d64 49 0) : Transform3 (num A64) in
  let p := mkPoint3 (d64 1 0) (d64 1 0) (d64 1 0) : Point3 (num A64) in
  VFinite3 v /\ Finite3 p /\ Finite3 (t3_transform_point (t3_inverse t) (t3_transform_point t p)) /\ p3_eq (t3_transform_point (t3_inverse t) (t3_transform_point t p)) p = false /\
  Finite3 (t3_transform_point (t3_inverse s) (t3_transform_point s p)) /\ p3_eq (t3_transform_point (t3_inverse s) (t3_transform_point s p)) p = false /\
  Affine4x4 (t3_forward (t3_and_then t s)) /\ Affine4x4 (t3_forward (t3_inverse (t3_and_then t s))) /\ MFinite4 (t3_forward (t3_and_then t s)) /\ MFinite4 (t3_forward (t3_inverse (t3_and_then t s))) /\
  Finite3 (t3_transform_point (t3_inverse (t3_and_then t s)) (t3_transform_point (t3_and_then t s) p)).
Proof.
  cbv zeta. split; [intros []; vm_compute; reflexivity|]. split; [intros []; vm_compute; reflexivity|]. split; [intros []; vm_compute; reflexivity|]. split; [vm_compute; reflexivity|].
  split; [intros []; vm_compute; reflexivity|]. split; [vm_compute; reflexivity|]. split; [repeat split; vm_compute; reflexivity|]. split; [repeat split; vm_compute; reflexivity|].
  split; [repeat constructor; vm_compute; reflexivity|]. split; [repeat constructor; vm_compute; reflexivity|]. intros []; vm_compute; reflexivity.
Qed.
