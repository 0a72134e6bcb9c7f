(** Theorems: C78 (rotations in floating point).
    [A] ranges over f32 and f64 on every platform, and exact reals (where unit_roundoff and min_subnormal are 0). *)
From Coq Require Import Bool NArith ZArith Reals List Lra Lia.
From Verif Require Import Scalar Types Vector2 Vector3 Point2 Point3 Ray BoundingBox2 BoundingBox3 Transform2 Transform3 Float
  XReal Arith SpecOrder SpecStruct SpecFloat SpecReal SpecErr SpecRot ExVals FloatErr FloatRot.
Local Open Scope R_scope.
(** * C78: rotations are as accurate as the platform's sin_cos *)
Theorem C78_rotation_accurate_2d : forall (A : arith) (angle : num A) (e : R), SinCosWithin angle e -> 0 <= e <= 1 / 128 ->
  let a := real_of angle in let t := t2_rotate angle in let h := e + 5 * unit_roundoff A in
  (forall v d, Finite (vcoord2 (t2_transform_vector t v) d) ->
     Rabs (real_of (vcoord2 (t2_transform_vector t v) d) - vcoord2 (Rrot2 a (RV2 v)) d) <= h * Rsum2 (RV2 v) + 3 * min_subnormal A) /\
  (forall v d, Finite (vcoord2 (t2_transform_vector (t2_inverse t) v) d) ->
     Rabs (real_of (vcoord2 (t2_transform_vector (t2_inverse t) v) d) - vcoord2 (Rrot2 (- a) (RV2 v)) d) <= h * Rsum2 (RV2 v) + 3 * min_subnormal A) /\
  (forall p d, Finite2 p -> Finite (coord2 (t2_transform_point t p) d) ->
     Rabs (real_of (coord2 (t2_transform_point t p) d) - vcoord2 (Rrot2 a (toV2 (RP2 p))) d) <= h * Rsum2 (toV2 (RP2 p)) + 3 * min_subnormal A) /\
  (forall p d, Finite2 p -> Finite (coord2 (t2_transform_point (t2_inverse t) p) d) ->
     Rabs (real_of (coord2 (t2_transform_point (t2_inverse t) p) d) - vcoord2 (Rrot2 (- a) (toV2 (RP2 p))) d) <= h * Rsum2 (toV2 (RP2 p)) + 3 * min_subnormal A).
Proof. exact C78_rotation_accurate_2d_pf. Qed.
Print Assumptions C78_rotation_accurate_2d.
Theorem C78_rotation_accurate_3d : forall (A : arith) (angle : num A) (e : R) t f e', Rotation angle e t f e' -> SinCosWithin angle e -> 0 <= e <= 1 / 128 ->
  let a := real_of angle in let h := e' + 5 * unit_roundoff A in
  (forall v d, Finite (vcoord3 (t3_transform_vector t v) d) ->
     Rabs (real_of (vcoord3 (t3_transform_vector t v) d) - vcoord3 (f a (RV3 v)) d) <= h * Rsum3 (RV3 v) + 3 * min_subnormal A) /\
  (forall v d, Finite (vcoord3 (t3_transform_vector (t3_inverse t) v) d) ->
     Rabs (real_of (vcoord3 (t3_transform_vector (t3_inverse t) v) d) - vcoord3 (f (- a) (RV3 v)) d) <= h * Rsum3 (RV3 v) + 3 * min_subnormal A) /\
  (forall p d, Finite3 p -> Finite (coord3 (t3_transform_point t p) d) ->
     Rabs (real_of (coord3 (t3_transform_point t p) d) - vcoord3 (f a (toV3 (RP3 p))) d) <= h * Rsum3 (toV3 (RP3 p)) + 3 * min_subnormal A) /\
  (forall p d, Finite3 p -> Finite (coord3 (t3_transform_point (t3_inverse t) p) d) ->
     Rabs (real_of (coord3 (t3_transform_point (t3_inverse t) p) d) - vcoord3 (f (- a) (toV3 (RP3 p))) d) <= h * Rsum3 (toV3 (RP3 p)) + 3 * min_subnormal A).
Proof. exact C78_rotation_accurate_3d_pf. Qed.
Print Assumptions C78_rotation_accurate_3d.
(** * C78: rotating forth and back, and lengths *)
Theorem C78_rotation_round_trip_2d : forall (A : arith) (angle : num A) (e : R), SinCosWithin angle e -> 0 <= e <= 1 / 128 ->
  let t := t2_rotate angle in let h := e + 5 * unit_roundoff A in
  (forall v d, let w := t2_transform_vector t v in VFinite2 w -> Finite (vcoord2 (t2_transform_vector (t2_inverse t) w) d) ->
     Rabs (real_of (vcoord2 (t2_transform_vector (t2_inverse t) w) d) - real_of (vcoord2 v d)) <= 5 * h * Rsum2 (RV2 v) + 11 * min_subnormal A) /\
  (forall p d, let q := t2_transform_point t p in Finite2 p -> Finite2 q -> Finite (coord2 (t2_transform_point (t2_inverse t) q) d) ->
     Rabs (real_of (coord2 (t2_transform_point (t2_inverse t) q) d) - real_of (coord2 p d)) <= 5 * h * Rsum2 (toV2 (RP2 p)) + 11 * min_subnormal A).
Proof. exact C78_rotation_round_trip_2d_pf. Qed.
Print Assumptions C78_rotation_round_trip_2d.
Theorem C78_rotation_round_trip_3d : forall (A : arith) (angle : num A) (e : R) t f e', Rotation angle e t f e' -> SinCosWithin angle e -> 0 <= e <= 1 / 128 ->
  let h := e' + 5 * unit_roundoff A in
  (forall v d, let w := t3_transform_vector t v in VFinite3 w -> Finite (vcoord3 (t3_transform_vector (t3_inverse t) w) d) ->
     Rabs (real_of (vcoord3 (t3_transform_vector (t3_inverse t) w) d) - real_of (vcoord3 v d)) <= 7 * h * Rsum3 (RV3 v) + 15 * min_subnormal A) /\
  (forall p d, let q := t3_transform_point t p in Finite3 p -> Finite3 q -> Finite (coord3 (t3_transform_point (t3_inverse t) q) d) ->
     Rabs (real_of (coord3 (t3_transform_point (t3_inverse t) q) d) - real_of (coord3 p d)) <= 7 * h * Rsum3 (toV3 (RP3 p)) + 15 * min_subnormal A).
Proof. exact C78_rotation_round_trip_3d_pf. Qed.
Print Assumptions C78_rotation_round_trip_3d.
Theorem C78_rotation_keeps_length_2d : forall (A : arith) (angle : num A) (e : R), SinCosWithin angle e -> 0 <= e <= 1 / 128 ->
  let t := t2_rotate angle in let h := e + 5 * unit_roundoff A in forall v, let w := t2_transform_vector t v in VFinite2 w ->
  Rabs (Rnorm2 (RV2 w) - Rnorm2 (RV2 v)) <= 3 * h * Rnorm2 (RV2 v) + 6 * min_subnormal A.
Proof. exact C78_rotation_keeps_length_2d_pf. Qed.
Print Assumptions C78_rotation_keeps_length_2d.
Theorem C78_rotation_keeps_length_3d : forall (A : arith) (angle : num A) (e : R) t f e', Rotation angle e t f e' -> SinCosWithin angle e -> 0 <= e <= 1 / 128 ->
  let h := e' + 5 * unit_roundoff A in forall v, let w := t3_transform_vector t v in VFinite3 w ->
  Rabs (Rnorm3 (RV3 w) - Rnorm3 (RV3 v)) <= 6 * h * Rnorm3 (RV3 v) + 9 * min_subnormal A.
Proof. exact C78_rotation_keeps_length_3d_pf. Qed.
Print Assumptions C78_rotation_keeps_length_3d.
(** * C78: the coordinate along the axis is untouched, whatever sin_cos returns *)
Theorem C78_axis_component_kept : forall (A : arith) (angle : num A) (v : Vector3 (num A)), VFinite3 v ->
  Eqs (v3x (t3_transform_vector (t3_rotate_x angle) v)) (v3x v) /\ Eqs (v3y (t3_transform_vector (t3_rotate_y angle) v)) (v3y v) /\
  Eqs (v3z (t3_transform_vector (t3_rotate_z angle) v)) (v3z v).
Proof. exact C78_axis_component_kept_pf. Qed.
Print Assumptions C78_axis_component_kept.
(* the sample platform takes sin x = x and cos x = 1, which is within 1/128 at 1/128; and in exact arithmetic sin_cos is exact *)
Example C78_example : SinCosWithin (d64 1 (-7) : num A64) (1 / 128) /\ (forall a, SinCosWithin (Fin a : num EXACT) 0) /\
  (let k := mkVector3 (d64 1 0) (d64 2 0) (d64 3 0) : Vector3 (num A64) in exists f, Rotation (d64 1 (-7)) (1 / 128) (t3_rotate_axis k (d64 1 (-7))) f (2 * (1 / 128) + 52 * unit_roundoff A64)) /\
  VFinite3 (t3_transform_vector (t3_rotate_x (d64 1 (-7) : num A64)) (mkVector3 (d64 1 0) (d64 2 0) (d64 3 0))).
Proof.
  split; [|split; [|split]].
  - assert (V : real_of (d64 1 (-7) : num A64) = / 128) by (cbn -[Rinv IZR]; unfold Defs.F2R; cbn; lra). assert (V1 : real_of (sone : num A64) = 1) by (apply real_of_1).
    unfold SinCosWithin. change (ssin_cos (d64 1 (-7) : num A64)) with (d64 1 (-7) : num A64, sone : num A64). rewrite V, V1.
    pose proof (sin_lt_x (/ 128) ltac:(lra)). pose proof PI_4. pose proof PI2_3_2. assert (0 < sin (/ 128)) by (apply sin_gt_0; lra).
    pose proof (sin_lt_x (/ 256) ltac:(lra)). assert (0 < sin (/ 256)) by (apply sin_gt_0; lra). pose proof (cos_2a_sin (/ 256)) as C. replace (2 * / 256) with (/ 128) in C by lra.
    assert (0 <= sin (/ 256) * sin (/ 256) <= / 256 * / 256) by (split; [apply Rmult_le_pos | apply Rmult_le_compat]; lra).
    split; [vm_compute; reflexivity|]. split; [vm_compute; reflexivity|]. split; apply Rabs_le; lra.
  - intros a. unfold SinCosWithin. cbn. rewrite !Rminus_diag_eq, Rabs_R0 by reflexivity. repeat split; try lra; reflexivity.
  - cbv zeta. eexists. apply Rot_axis; [vm_compute; reflexivity | apply dot_ge_1_ok; vm_compute; reflexivity |].
    destruct (real_of_1 (A := A64)) as [F V]. apply Rlt_le_trans with 1; [lra|]. apply Rle_trans with (Rabs (vcoord3 (RV3 (mkVector3 (d64 1 0 : num A64) (d64 2 0) (d64 3 0))) D3X)); [|apply comp_le_norm3].
    eapply Rle_trans; [|apply Rle_abs]. rewrite <- V. apply Le_real; vm_compute; reflexivity.
  - intros []; vm_compute; reflexivity.
Qed.
