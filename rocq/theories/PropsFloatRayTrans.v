(** Theorems: C83 (transforming rays in floating point).
    [A] ranges over f32 and f64 on every platform, and exact reals (where unit_roundoff and min_subnormal are 0). *)
From Coq Require Import Bool NArith ZArith Reals List Lra Lia.
From Verif Require Import Scalar Types Vector2 Vector3 Point2 Point3 Ray BoundingBox2 BoundingBox3 Transform2 Transform3 Float
  XReal Arith SpecOrder SpecStruct SpecFloat SpecReal SpecErr SpecSame SpecChain ExVals FloatRayTrans.
Import ListNotations.
Local Open Scope R_scope.
(** * C83: evaluating a ray and then transforming the point, against transforming the ray and then evaluating it *)
(** The exact image of the point at parameter s is X = M o + s (M v); the computed one is within (1+u)^(n+2) - 1 of the same sum with absolute values *)
Theorem C83_evaluate_then_transform_2d : forall (A : arith) (t : Transform2 (num A)) (ray : Ray2 (num A)) (s : num A) (d : Dimension2), let u := unit_roundoff A in let i := dim2_index d in
  let M := ent3 (RM3 (t2_forward t)) in let o := RP2 (r2_origin ray) in let v := RV2 (r2_direction ray) in let q := t2_transform_point t (r2_at ray s) in
  Affine3x3 (t2_forward t) -> Finite2 q ->
  Rabs (real_of (coord2 q d) - (mat_apply 3 M (hom2 o) i + real_of s * mat_apply 3 M (dir2 v) i)) <=
  ((1 + u) ^ (3 + 2) - 1) * (mat_apply 3 (mat_abs M) (hom2 (absP2 o)) i + Rabs (real_of s) * mat_apply 3 (mat_abs M) (dir2 (absV2 v)) i) +
  min_subnormal A * ((1 + u) ^ 3 * sum_n 3 (fun k => mat_abs M i k) + 2).
Proof. exact C83_evaluate_then_transform_2d_pf. Qed.
Print Assumptions C83_evaluate_then_transform_2d.
Theorem C83_evaluate_then_transform_3d : forall (A : arith) (t : Transform3 (num A)) (ray : Ray3 (num A)) (s : num A) (d : Dimension3), let u := unit_roundoff A in let i := dim3_index d in
  let M := ent4 (RM4 (t3_forward t)) in let o := RP3 (r3_origin ray) in let v := RV3 (r3_direction ray) in let q := t3_transform_point t (r3_at ray s) in
  Affine4x4 (t3_forward t) -> Finite3 q ->
  Rabs (real_of (coord3 q d) - (mat_apply 4 M (hom3 o) i + real_of s * mat_apply 4 M (dir3 v) i)) <=
  ((1 + u) ^ (4 + 2) - 1) * (mat_apply 4 (mat_abs M) (hom3 (absP3 o)) i + Rabs (real_of s) * mat_apply 4 (mat_abs M) (dir3 (absV3 v)) i) +
  min_subnormal A * ((1 + u) ^ 4 * sum_n 4 (fun k => mat_abs M i k) + 3).
Proof. exact C83_evaluate_then_transform_3d_pf. Qed.
Print Assumptions C83_evaluate_then_transform_3d.
Theorem C83_transform_then_evaluate_2d : forall (A : arith) (t : Transform2 (num A)) (ray : Ray2 (num A)) (s : num A) (d : Dimension2), let u := unit_roundoff A in let i := dim2_index d in
  let M := ent3 (RM3 (t2_forward t)) in let o := RP2 (r2_origin ray) in let v := RV2 (r2_direction ray) in let q := r2_at (t2_transform_ray t ray) s in
  Affine3x3 (t2_forward t) -> Finite2 (r2_origin (t2_transform_ray t ray)) -> Finite (coord2 q d) ->
  Rabs (real_of (coord2 q d) - (mat_apply 3 M (hom2 o) i + real_of s * mat_apply 3 M (dir2 v) i)) <=
  ((1 + u) ^ (3 + 2) - 1) * (mat_apply 3 (mat_abs M) (hom2 (absP2 o)) i + Rabs (real_of s) * mat_apply 3 (mat_abs M) (dir2 (absV2 v)) i) +
  min_subnormal A * ((1 + u) ^ 2 * (2 * (1 + Rabs (real_of s))) + 1).
Proof. exact C83_transform_then_evaluate_2d_pf. Qed.
Print Assumptions C83_transform_then_evaluate_2d.
Theorem C83_transform_then_evaluate_3d : forall (A : arith) (t : Transform3 (num A)) (ray : Ray3 (num A)) (s : num A) (d : Dimension3), let u := unit_roundoff A in let i := dim3_index d in
  let M := ent4 (RM4 (t3_forward t)) in let o := RP3 (r3_origin ray) in let v := RV3 (r3_direction ray) in let q := r3_at (t3_transform_ray t ray) s in
  Affine4x4 (t3_forward t) -> Finite3 (r3_origin (t3_transform_ray t ray)) -> Finite (coord3 q d) ->
  Rabs (real_of (coord3 q d) - (mat_apply 4 M (hom3 o) i + real_of s * mat_apply 4 M (dir3 v) i)) <=
  ((1 + u) ^ (4 + 2) - 1) * (mat_apply 4 (mat_abs M) (hom3 (absP3 o)) i + Rabs (real_of s) * mat_apply 4 (mat_abs M) (dir3 (absV3 v)) i) +
  min_subnormal A * ((1 + u) ^ 2 * (3 * (1 + Rabs (real_of s))) + 1).
Proof. exact C83_transform_then_evaluate_3d_pf. Qed.
Print Assumptions C83_transform_then_evaluate_3d.
(** so the two ways agree up to the two errors *)
Theorem C83_ray_agrees_2d : forall (A : arith) (t : Transform2 (num A)) (ray : Ray2 (num A)) (s : num A) (d : Dimension2), let u := unit_roundoff A in let i := dim2_index d in
  let M := ent3 (RM3 (t2_forward t)) in let o := RP2 (r2_origin ray) in let v := RV2 (r2_direction ray) in
  let q1 := t2_transform_point t (r2_at ray s) in let q2 := r2_at (t2_transform_ray t ray) s in
  Affine3x3 (t2_forward t) -> Finite2 q1 -> Finite2 (r2_origin (t2_transform_ray t ray)) -> Finite (coord2 q2 d) ->
  Rabs (real_of (coord2 q1 d) - real_of (coord2 q2 d)) <=
  2 * ((1 + u) ^ (3 + 2) - 1) * (mat_apply 3 (mat_abs M) (hom2 (absP2 o)) i + Rabs (real_of s) * mat_apply 3 (mat_abs M) (dir2 (absV2 v)) i) +
  min_subnormal A * ((1 + u) ^ 3 * sum_n 3 (fun k => mat_abs M i k) + 2 + ((1 + u) ^ 2 * (2 * (1 + Rabs (real_of s))) + 1)).
Proof. exact C83_ray_agrees_2d_pf. Qed.
Print Assumptions C83_ray_agrees_2d.
Theorem C83_ray_agrees_3d : forall (A : arith) (t : Transform3 (num A)) (ray : Ray3 (num A)) (s : num A) (d : Dimension3), let u := unit_roundoff A in let i := dim3_index d in
  let M := ent4 (RM4 (t3_forward t)) in let o := RP3 (r3_origin ray) in let v := RV3 (r3_direction ray) in
  let q1 := t3_transform_point t (r3_at ray s) in let q2 := r3_at (t3_transform_ray t ray) s in
  Affine4x4 (t3_forward t) -> Finite3 q1 -> Finite3 (r3_origin (t3_transform_ray t ray)) -> Finite (coord3 q2 d) ->
  Rabs (real_of (coord3 q1 d) - real_of (coord3 q2 d)) <=
  2 * ((1 + u) ^ (4 + 2) - 1) * (mat_apply 4 (mat_abs M) (hom3 (absP3 o)) i + Rabs (real_of s) * mat_apply 4 (mat_abs M) (dir3 (absV3 v)) i) +
  min_subnormal A * ((1 + u) ^ 4 * sum_n 4 (fun k => mat_abs M i k) + 3 + ((1 + u) ^ 2 * (3 * (1 + Rabs (real_of s))) + 1)).
Proof. exact C83_ray_agrees_3d_pf. Qed.
Print Assumptions C83_ray_agrees_3d.
(* the hypotheses are met in f64, and the two ways can differ *)
Example C83_example : let t := t3_and_then (t3_inverse (t3_scale (d64 3 0) (d64 5 0) (d64 7 0))) (t3_translate (mkVector3 (d64 1 0) (d64 3 (-1)) (nd64 5 0))) : Transform3 (num A64) in
  let ray := r3_new (mkPoint3 (d64 1 0) (d64 1 1) (d64 3 0)) (mkVector3 (d64 5 0) (d64 11 0) (d64 13 0)) in let s := d64 3602879701896397 (-55) in
  Affine4x4 (t3_forward t) /\ Finite3 (t3_transform_point t (r3_at ray s)) /\ Finite3 (r3_origin (t3_transform_ray t ray)) /\ Finite3 (r3_at (t3_transform_ray t ray) s) /\
  p3_eq (t3_transform_point t (r3_at ray s)) (r3_at (t3_transform_ray t ray) s) = false.
Proof.
  cbv zeta. split; [repeat split; vm_compute; reflexivity|]. split; [intros []; vm_compute; reflexivity|]. split; [intros []; vm_compute; reflexivity|]. split; [intros []; vm_compute; reflexivity|]. vm_compute. reflexivity.
Qed.
