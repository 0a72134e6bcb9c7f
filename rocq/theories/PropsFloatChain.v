(** Theorems: C81 (chains of transforms in floating point).
    [A] ranges over f32 and f64 on every platform, and exact reals (where unit_roundoff and min_subnormal are 0). *)
From Coq Require Import Bool NArith ZArith Reals List Lra Lia.
From Verif Require Import Scalar Types Vector2 Vector3 Point2 Point3 Ray BoundingBox2 BoundingBox3 Transform2 Transform3 Float
  XReal Arith SpecOrder SpecStruct SpecFloat SpecReal SpecErr SpecSame SpecChain ExVals FloatChain.
Import ListNotations.
Local Open Scope R_scope.
(** * C81: transforms in floating point stay affine, and chains of them accumulate rounding errors one step at a time *)
(** Whatever is built from the affine constructors with and_then and inverse, if its matrix is finite its last row is exactly 0 ... 0 1 *)
Theorem C81_stays_affine_2d : forall (A : arith) (t : Transform2 (num A)), Affine_built2 t -> MFinite3 (t2_forward t) -> Affine3x3 (t2_forward t).
Proof. exact C81_stays_affine_2d_pf. Qed.
Print Assumptions C81_stays_affine_2d.
Theorem C81_stays_affine_3d : forall (A : arith) (t : Transform3 (num A)), Affine_built3 t -> MFinite4 (t3_forward t) -> Affine4x4 (t3_forward t).
Proof. exact C81_stays_affine_3d_pf. Qed.
Print Assumptions C81_stays_affine_3d.
(** so the image of a point is, operation for operation, the image of the origin plus the image of the position vector: no division takes place *)
Theorem C81_point_is_origin_plus_vector_2d : forall (A : arith) (t : Transform2 (num A)) (p : Point2 (num A)), Affine_built2 t -> MFinite3 (t2_forward t) -> Finite2 p ->
  PSame2 (t2_transform_point t p) (p2_add (t2_transform_point t p2_origin) (t2_transform_vector t (v2_from p))).
Proof. exact C81_point_is_origin_plus_vector_2d_pf. Qed.
Print Assumptions C81_point_is_origin_plus_vector_2d.
Theorem C81_point_is_origin_plus_vector_3d : forall (A : arith) (t : Transform3 (num A)) (p : Point3 (num A)), Affine_built3 t -> MFinite4 (t3_forward t) -> Finite3 p ->
  PSame3 (t3_transform_point t p) (p3_add (t3_transform_point t p3_origin) (t3_transform_vector t (v3_from p))).
Proof. exact C81_point_is_origin_plus_vector_3d_pf. Qed.
Print Assumptions C81_point_is_origin_plus_vector_3d.
(** the matrix of a chain t1.and_then(t2)...: its error against the exact product grows by one factor (1+u)^n per step, relative to the product of the absolute matrices *)
Theorem C81_chain_matrix_2d : forall (A : arith) (l : list (Transform2 (num A))) (r c : nat), (r < 3)%nat -> (c < 3)%nat ->
  let t := fold_left t2_and_then l t2_identity in let u := unit_roundoff A in
  let M := map (fun x => ent3 (RM3 (t2_forward x))) l in let B := map mat_abs M in
  MFinite3 (t2_forward t) ->
  Rabs (ent3 (RM3 (t2_forward t)) r c - chain 3 M r c) <= ((1 + u) ^ (3 * length l) - 1) * chain 3 B r c + min_subnormal A * floor_chain 3 ((1 + u) ^ 3) 3 B r c.
Proof. exact C81_chain_matrix_2d_pf. Qed.
Print Assumptions C81_chain_matrix_2d.
Theorem C81_chain_matrix_3d : forall (A : arith) (l : list (Transform3 (num A))) (r c : nat), (r < 4)%nat -> (c < 4)%nat ->
  let t := fold_left t3_and_then l t3_identity in let u := unit_roundoff A in
  let M := map (fun x => ent4 (RM4 (t3_forward x))) l in let B := map mat_abs M in
  MFinite4 (t3_forward t) ->
  Rabs (ent4 (RM4 (t3_forward t)) r c - chain 4 M r c) <= ((1 + u) ^ (4 * length l) - 1) * chain 4 B r c + min_subnormal A * floor_chain 4 ((1 + u) ^ 4) 4 B r c.
Proof. exact C81_chain_matrix_3d_pf. Qed.
Print Assumptions C81_chain_matrix_3d.
Theorem C81_chain_inverse_2d : forall (A : arith) (l : list (Transform2 (num A))) (r c : nat), (r < 3)%nat -> (c < 3)%nat ->
  let t := t2_inverse (fold_left t2_and_then l t2_identity) in let u := unit_roundoff A in
  let M := map (fun x => ent3 (RM3 (t2_forward (t2_inverse x)))) l in let B := map mat_abs M in
  MFinite3 (t2_forward t) ->
  Rabs (ent3 (RM3 (t2_forward t)) r c - chain_back 3 M r c) <= ((1 + u) ^ (3 * length l) - 1) * chain_back 3 B r c + min_subnormal A * floor_back 3 ((1 + u) ^ 3) 3 B r c.
Proof. exact C81_chain_inverse_2d_pf. Qed.
Print Assumptions C81_chain_inverse_2d.
Theorem C81_chain_inverse_3d : forall (A : arith) (l : list (Transform3 (num A))) (r c : nat), (r < 4)%nat -> (c < 4)%nat ->
  let t := t3_inverse (fold_left t3_and_then l t3_identity) in let u := unit_roundoff A in
  let M := map (fun x => ent4 (RM4 (t3_forward (t3_inverse x)))) l in let B := map mat_abs M in
  MFinite4 (t3_forward t) ->
  Rabs (ent4 (RM4 (t3_forward t)) r c - chain_back 4 M r c) <= ((1 + u) ^ (4 * length l) - 1) * chain_back 4 B r c + min_subnormal A * floor_back 4 ((1 + u) ^ 4) 4 B r c.
Proof. exact C81_chain_inverse_3d_pf. Qed.
Print Assumptions C81_chain_inverse_3d.
(** applying the composed transform to a point or a vector *)
Theorem C81_chain_point_2d : forall (A : arith) (l : list (Transform2 (num A))) (p : Point2 (num A)) (d : Dimension2),
  let t := fold_left t2_and_then l t2_identity in let u := unit_roundoff A in
  let M := map (fun x => ent3 (RM3 (t2_forward x))) l in let B := map mat_abs M in let P := hom2 (absP2 (RP2 p)) in
  Forall (fun x => Affine3x3 (t2_forward x)) l -> MFinite3 (t2_forward t) -> Finite2 p -> Finite (coord2 (t2_transform_point t p) d) ->
  Rabs (real_of (coord2 (t2_transform_point t p) d) - mat_apply 3 (chain 3 M) (hom2 (RP2 p)) (dim2_index d)) <=
  ((1 + u) ^ (3 * (length l + 1)) - 1) * mat_apply 3 (chain 3 B) P (dim2_index d) +
  min_subnormal A * ((1 + u) ^ 3 * mat_apply 3 (floor_chain 3 ((1 + u) ^ 3) 3 B) P (dim2_index d) + 2).
Proof. exact C81_chain_point_2d_pf. Qed.
Print Assumptions C81_chain_point_2d.
Theorem C81_chain_point_3d : forall (A : arith) (l : list (Transform3 (num A))) (p : Point3 (num A)) (d : Dimension3),
  let t := fold_left t3_and_then l t3_identity in let u := unit_roundoff A in
  let M := map (fun x => ent4 (RM4 (t3_forward x))) l in let B := map mat_abs M in let P := hom3 (absP3 (RP3 p)) in
  Forall (fun x => Affine4x4 (t3_forward x)) l -> MFinite4 (t3_forward t) -> Finite3 p -> Finite (coord3 (t3_transform_point t p) d) ->
  Rabs (real_of (coord3 (t3_transform_point t p) d) - mat_apply 4 (chain 4 M) (hom3 (RP3 p)) (dim3_index d)) <=
  ((1 + u) ^ (4 * (length l + 1)) - 1) * mat_apply 4 (chain 4 B) P (dim3_index d) +
  min_subnormal A * ((1 + u) ^ 4 * mat_apply 4 (floor_chain 4 ((1 + u) ^ 4) 4 B) P (dim3_index d) + 3).
Proof. exact C81_chain_point_3d_pf. Qed.
Print Assumptions C81_chain_point_3d.
Theorem C81_chain_vector_2d : forall (A : arith) (l : list (Transform2 (num A))) (v : Vector2 (num A)) (d : Dimension2),
  let t := fold_left t2_and_then l t2_identity in let u := unit_roundoff A in
  let M := map (fun x => ent3 (RM3 (t2_forward x))) l in let B := map mat_abs M in let V := dir2 (absV2 (RV2 v)) in
  MFinite3 (t2_forward t) -> Finite (vcoord2 (t2_transform_vector t v) d) ->
  Rabs (real_of (vcoord2 (t2_transform_vector t v) d) - mat_apply 3 (chain 3 M) (dir2 (RV2 v)) (dim2_index d)) <=
  ((1 + u) ^ (3 * (length l + 1)) - 1) * mat_apply 3 (chain 3 B) V (dim2_index d) +
  min_subnormal A * ((1 + u) ^ 3 * mat_apply 3 (floor_chain 3 ((1 + u) ^ 3) 3 B) V (dim2_index d) + 2).
Proof. exact C81_chain_vector_2d_pf. Qed.
Print Assumptions C81_chain_vector_2d.
Theorem C81_chain_vector_3d : forall (A : arith) (l : list (Transform3 (num A))) (v : Vector3 (num A)) (d : Dimension3),
  let t := fold_left t3_and_then l t3_identity in let u := unit_roundoff A in
  let M := map (fun x => ent4 (RM4 (t3_forward x))) l in let B := map mat_abs M in let V := dir3 (absV3 (RV3 v)) in
  MFinite4 (t3_forward t) -> Finite (vcoord3 (t3_transform_vector t v) d) ->
  Rabs (real_of (vcoord3 (t3_transform_vector t v) d) - mat_apply 4 (chain 4 M) (dir3 (RV3 v)) (dim3_index d)) <=
  ((1 + u) ^ (4 * (length l + 1)) - 1) * mat_apply 4 (chain 4 B) V (dim3_index d) +
  min_subnormal A * ((1 + u) ^ 4 * mat_apply 4 (floor_chain 4 ((1 + u) ^ 4) 4 B) V (dim3_index d) + 3).
Proof. exact C81_chain_vector_3d_pf. Qed.
Print Assumptions C81_chain_vector_3d.
(** applying the transforms one after the other *)
Theorem C81_steps_point_2d : forall (A : arith) (l : list (Transform2 (num A))) (p : Point2 (num A)) (d : Dimension2),
  let q := fold_left (fun q x => t2_transform_point x q) l p in let u := unit_roundoff A in
  let M := map (fun x => ent3 (RM3 (t2_forward x))) l in let B := map mat_abs M in
  Forall (fun x => Affine3x3 (t2_forward x)) l -> Finite2 q ->
  Rabs (real_of (coord2 q d) - mat_apply 3 (chain 3 M) (hom2 (RP2 p)) (dim2_index d)) <=
  ((1 + u) ^ (3 * length l) - 1) * mat_apply 3 (chain 3 B) (hom2 (absP2 (RP2 p))) (dim2_index d) + min_subnormal A * floor_path 3 ((1 + u) ^ 3) 2 B (dim2_index d).
Proof. exact C81_steps_point_2d_pf. Qed.
Print Assumptions C81_steps_point_2d.
Theorem C81_steps_point_3d : forall (A : arith) (l : list (Transform3 (num A))) (p : Point3 (num A)) (d : Dimension3),
  let q := fold_left (fun q x => t3_transform_point x q) l p in let u := unit_roundoff A in
  let M := map (fun x => ent4 (RM4 (t3_forward x))) l in let B := map mat_abs M in
  Forall (fun x => Affine4x4 (t3_forward x)) l -> Finite3 q ->
  Rabs (real_of (coord3 q d) - mat_apply 4 (chain 4 M) (hom3 (RP3 p)) (dim3_index d)) <=
  ((1 + u) ^ (4 * length l) - 1) * mat_apply 4 (chain 4 B) (hom3 (absP3 (RP3 p))) (dim3_index d) + min_subnormal A * floor_path 4 ((1 + u) ^ 4) 3 B (dim3_index d).
Proof. exact C81_steps_point_3d_pf. Qed.
Print Assumptions C81_steps_point_3d.
Theorem C81_steps_vector_2d : forall (A : arith) (l : list (Transform2 (num A))) (v : Vector2 (num A)) (d : Dimension2),
  let q := fold_left (fun q x => t2_transform_vector x q) l v in let u := unit_roundoff A in
  let M := map (fun x => ent3 (RM3 (t2_forward x))) l in let B := map mat_abs M in
  Forall (fun x => Affine3x3 (t2_forward x)) l -> VFinite2 q ->
  Rabs (real_of (vcoord2 q d) - mat_apply 3 (chain 3 M) (dir2 (RV2 v)) (dim2_index d)) <=
  ((1 + u) ^ (3 * length l) - 1) * mat_apply 3 (chain 3 B) (dir2 (absV2 (RV2 v))) (dim2_index d) + min_subnormal A * floor_path 3 ((1 + u) ^ 3) 2 B (dim2_index d).
Proof. exact C81_steps_vector_2d_pf. Qed.
Print Assumptions C81_steps_vector_2d.
Theorem C81_steps_vector_3d : forall (A : arith) (l : list (Transform3 (num A))) (v : Vector3 (num A)) (d : Dimension3),
  let q := fold_left (fun q x => t3_transform_vector x q) l v in let u := unit_roundoff A in
  let M := map (fun x => ent4 (RM4 (t3_forward x))) l in let B := map mat_abs M in
  Forall (fun x => Affine4x4 (t3_forward x)) l -> VFinite3 q ->
  Rabs (real_of (vcoord3 q d) - mat_apply 4 (chain 4 M) (dir3 (RV3 v)) (dim3_index d)) <=
  ((1 + u) ^ (4 * length l) - 1) * mat_apply 4 (chain 4 B) (dir3 (absV3 (RV3 v))) (dim3_index d) + min_subnormal A * floor_path 4 ((1 + u) ^ 4) 3 B (dim3_index d).
Proof. exact C81_steps_vector_3d_pf. Qed.
Print Assumptions C81_steps_vector_3d.
(** so composing first and applying the transforms one by one agree up to the two errors *)
Theorem C81_and_then_agrees_2d : forall (A : arith) (l : list (Transform2 (num A))) (p : Point2 (num A)) (d : Dimension2),
  let t := fold_left t2_and_then l t2_identity in let q := fold_left (fun q x => t2_transform_point x q) l p in let u := unit_roundoff A in
  let B := map mat_abs (map (fun x => ent3 (RM3 (t2_forward x))) l) in let P := hom2 (absP2 (RP2 p)) in
  Forall (fun x => Affine3x3 (t2_forward x)) l -> MFinite3 (t2_forward t) -> Finite2 q -> Finite (coord2 (t2_transform_point t p) d) ->
  Rabs (real_of (coord2 (t2_transform_point t p) d) - real_of (coord2 q d)) <=
  ((1 + u) ^ (3 * (length l + 1)) + (1 + u) ^ (3 * length l) - 2) * mat_apply 3 (chain 3 B) P (dim2_index d) +
  min_subnormal A * ((1 + u) ^ 3 * mat_apply 3 (floor_chain 3 ((1 + u) ^ 3) 3 B) P (dim2_index d) + 2 + floor_path 3 ((1 + u) ^ 3) 2 B (dim2_index d)).
Proof. exact C81_and_then_agrees_2d_pf. Qed.
Print Assumptions C81_and_then_agrees_2d.
Theorem C81_and_then_agrees_3d : forall (A : arith) (l : list (Transform3 (num A))) (p : Point3 (num A)) (d : Dimension3),
  let t := fold_left t3_and_then l t3_identity in let q := fold_left (fun q x => t3_transform_point x q) l p in let u := unit_roundoff A in
  let B := map mat_abs (map (fun x => ent4 (RM4 (t3_forward x))) l) in let P := hom3 (absP3 (RP3 p)) in
  Forall (fun x => Affine4x4 (t3_forward x)) l -> MFinite4 (t3_forward t) -> Finite3 q -> Finite (coord3 (t3_transform_point t p) d) ->
  Rabs (real_of (coord3 (t3_transform_point t p) d) - real_of (coord3 q d)) <=
  ((1 + u) ^ (4 * (length l + 1)) + (1 + u) ^ (4 * length l) - 2) * mat_apply 4 (chain 4 B) P (dim3_index d) +
  min_subnormal A * ((1 + u) ^ 4 * mat_apply 4 (floor_chain 4 ((1 + u) ^ 4) 4 B) P (dim3_index d) + 3 + floor_path 4 ((1 + u) ^ 4) 3 B (dim3_index d)).
Proof. exact C81_and_then_agrees_3d_pf. Qed.
Print Assumptions C81_and_then_agrees_3d.
(* the hypotheses are met by a chain of three transforms in f64 *)
Example C81_example : let l := [t3_translate (mkVector3 (d64 1 0) (d64 3 (-1)) (nd64 5 0)); t3_inverse (t3_scale (d64 3 0) (d64 5 0) (d64 7 0)); t3_rotate_axis (mkVector3 (d64 1 0) (d64 2 0) (d64 3 0)) (d64 1 (-3))] : list (Transform3 (num A64)) in
  let t := fold_left t3_and_then l t3_identity in
  Forall Affine_built3 l /\ Affine_built3 t /\ Forall (fun x => Affine4x4 (t3_forward x)) l /\ MFinite4 (t3_forward t) /\ MFinite4 (t3_forward (t3_inverse t)) /\
  Finite3 (t3_transform_point t ptA3) /\ Finite3 (fold_left (fun q x => t3_transform_point x q) l ptA3) /\
  p3_eq (t3_transform_point t ptA3) (fold_left (fun q x => t3_transform_point x q) l ptA3) = false.
Proof.
  cbv zeta. split; [repeat constructor|]. split; [cbn [fold_left]; repeat constructor|]. split; [repeat constructor; vm_compute; reflexivity|]. split; [repeat constructor; vm_compute; reflexivity|]. split; [repeat constructor; vm_compute; reflexivity|].
  split; [intros []; vm_compute; reflexivity|]. split; [intros []; vm_compute; reflexivity|]. vm_compute. reflexivity.
Qed.
