(** Theorems: C80 (look_at in floating point).
    [A] ranges over f32 and f64 on every platform, and exact reals (where unit_roundoff and min_subnormal are 0). *)
From Coq Require Import Bool NArith ZArith Reals List Lra Lia.
From Verif Require Import Scalar Types Vector2 Vector3 Point2 Point3 Ray BoundingBox2 BoundingBox3 Transform2 Transform3 Float
  XReal Arith SpecOrder SpecStruct SpecFloat SpecReal SpecErr SpecRot SpecTrans SpecLook ExVals FloatErr FloatInv FloatInvAcc FloatLook.
Import ListNotations.
Local Open Scope R_scope.
(** * C80: look_at in floating point, for parameters that are not degenerate (LookOk) *)
(** look_at succeeds, with finite matrices *)
Theorem C80_look_at_ok : forall (A : arith) (prof : profile) (from target : Point3 (num A)) (up : Vector3 (num A)) (s : R), LookOk from target up s ->
  exists t, t3_look_at prof from target up = Ret (Ok t) /\ MFinite4 (t3_forward t) /\ MFinite4 (t3_forward (t3_inverse t)).
Proof. exact C80_look_at_ok_pf. Qed.
Print Assumptions C80_look_at_ok.
(** the inverse of the transform maps the origin to the eye, and the axes to a frame that is orthonormal and right-handed up to rounding, whose z axis is the direction of the target *)
Theorem C80_camera_frame : forall (A : arith) (prof : profile) (from target : Point3 (num A)) (up : Vector3 (num A)) (s : R) t, LookOk from target up s -> t3_look_at prof from target up = Ret (Ok t) ->
  let u := unit_roundoff A in let back := t3_inverse t in
  let x := RV3 (t3_transform_vector back v3_x_axis) in let y := RV3 (t3_transform_vector back v3_y_axis) in let z := RV3 (t3_transform_vector back v3_z_axis) in
  PEq3 (t3_transform_point back p3_origin) from /\
  VFinite3 (t3_transform_vector back v3_x_axis) /\ VFinite3 (t3_transform_vector back v3_y_axis) /\ VFinite3 (t3_transform_vector back v3_z_axis) /\
  Rabs (Rdot3 x x - 1) <= 17 * u /\ Rabs (Rdot3 y y - 1) <= 45 * u / s /\ Rabs (Rdot3 z z - 1) <= 17 * u /\
  Rabs (Rdot3 x z) <= 17 * u / s /\ Rabs (Rdot3 y z) <= 5 * u /\ Rabs (Rdot3 x y) <= 5 * u /\ 99 / 100 <= Rdet3 x y z <= 10001 / 10000 /\
  (forall d, Rabs (vcoord3 z d - (coord3 (RP3 target) d - coord3 (RP3 from) d) / Rdist3 (RP3 target) (RP3 from)) <= 10 * u).
Proof. exact C80_camera_frame_pf. Qed.
Print Assumptions C80_camera_frame.
(** the eye goes to the origin, the target to the positive z axis at its distance *)
Theorem C80_eye_to_origin : forall (A : arith) (prof : profile) (from target : Point3 (num A)) (up : Vector3 (num A)) (s : R) t, LookOk from target up s -> t3_look_at prof from target up = Ret (Ok t) ->
  forall d, Finite (coord3 (t3_transform_point t from) d) /\
  Rabs (real_of (coord3 (t3_transform_point t from) d)) <= 424 * unit_roundoff A * Rsum3 (toV3 (RP3 from)) + 24 * min_subnormal A.
Proof. exact C80_eye_to_origin_pf. Qed.
Print Assumptions C80_eye_to_origin.
Theorem C80_target_on_axis : forall (A : arith) (prof : profile) (from target : Point3 (num A)) (up : Vector3 (num A)) (s : R) t, LookOk from target up s -> t3_look_at prof from target up = Ret (Ok t) ->
  forall d, Finite (coord3 (t3_transform_point t target) d) ->
  Rabs (real_of (coord3 (t3_transform_point t target) d) - match d with D3Z => Rdist3 (RP3 target) (RP3 from) | _ => 0 end)
    <= 222 * unit_roundoff A * (Rsum3 (toV3 (RP3 target)) + Rsum3 (toV3 (RP3 from))) + 24 * min_subnormal A.
Proof. exact C80_target_on_axis_pf. Qed.
Print Assumptions C80_target_on_axis.
(** lengths of vectors are kept up to rounding *)
Theorem C80_lengths_kept : forall (A : arith) (prof : profile) (from target : Point3 (num A)) (up : Vector3 (num A)) (s : R) t (v : Vector3 (num A)), LookOk from target up s -> t3_look_at prof from target up = Ret (Ok t) ->
  VFinite3 (t3_transform_vector t v) ->
  Rabs (Rnorm3 (RV3 (t3_transform_vector t v)) - Rnorm3 (RV3 v)) <= 360 * unit_roundoff A / s * Rnorm3 (RV3 v) + 6 * min_subnormal A.
Proof. exact C80_lengths_kept_pf. Qed.
Print Assumptions C80_lengths_kept.
(** up stays in the half plane of the y axis: its x coordinate is tiny and its y coordinate is about s times its length *)
Theorem C80_up_is_up : forall (A : arith) (prof : profile) (from target : Point3 (num A)) (up : Vector3 (num A)) (s : R) t, LookOk from target up s -> t3_look_at prof from target up = Ret (Ok t) ->
  VFinite3 (t3_transform_vector t up) ->
  Rabs (v3x (RV3 (t3_transform_vector t up))) <= 220 * unit_roundoff A / s * Rnorm3 (RV3 up) /\ 3 / 4 * s * Rnorm3 (RV3 up) <= v3y (RV3 (t3_transform_vector t up)).
Proof. exact C80_up_is_up_pf. Qed.
Print Assumptions C80_up_is_up.
(** the transform computes the coordinates in the camera's frame, of points and of vectors *)
Theorem C80_coordinates : forall (A : arith) (prof : profile) (from target : Point3 (num A)) (up : Vector3 (num A)) (s : R) t, LookOk from target up s -> t3_look_at prof from target up = Ret (Ok t) ->
  let u := unit_roundoff A in let back := t3_inverse t in
  let x := RV3 (t3_transform_vector back v3_x_axis) in let y := RV3 (t3_transform_vector back v3_y_axis) in let z := RV3 (t3_transform_vector back v3_z_axis) in
  (forall v d, let w := RV3 (t3_transform_vector t v) in VFinite3 (t3_transform_vector t v) ->
    Rabs (vcoord3 x d * v3x w + vcoord3 y d * v3y w + vcoord3 z d * v3z w - vcoord3 (RV3 v) d) <= 271 * u * Rsum3 (RV3 v) + 10 * min_subnormal A) /\
  (forall p d, let q := RP3 (t3_transform_point t p) in Finite3 p -> Finite3 (t3_transform_point t p) ->
    Rabs (coord3 (RP3 from) d + vcoord3 x d * p3x q + vcoord3 y d * p3y q + vcoord3 z d * p3z q - coord3 (RP3 p) d)
      <= 640 * u * (Rsum3 (toV3 (RP3 p)) + Rsum3 (toV3 (RP3 from))) + 73 * min_subnormal A).
Proof. exact C80_coordinates_pf. Qed.
Print Assumptions C80_coordinates.
(* the hypotheses are met: eye (1,2,3), target (4,6,3), up (0,1,2), in f64 *)
Example C80_example : let from := mkPoint3 (d64 1 0) (d64 2 0) (d64 3 0) : Point3 (num A64) in let target := mkPoint3 (d64 4 0) (d64 6 0) (d64 3 0) in let up := mkVector3 (d64 0 0) (d64 1 0) (d64 2 0) in
  (exists s, LookOk from target up s /\ 1 / 4 <= s) /\
  (forall prof, exists t, t3_look_at prof from target up = Ret (Ok t) /\ Finite3 (t3_transform_point t target) /\ VFinite3 (t3_transform_vector t up)).
Proof.
  assert (R0 : real_of (A := A64) (d64 1 0) = 1) by (apply real_flit; reflexivity). assert (R2 : real_of (A := A64) (d64 2 0) = 2) by (apply real_flit; reflexivity). assert (R3 : real_of (A := A64) (d64 3 0) = 3) by (apply real_flit; reflexivity).
  intros from target up. split.
  - exists (Rnorm3 (RV3 (v3_cross (v3_normalize up) (v3_normalize (p3_sub target from))))).
    destruct (len_ex64 (p3_sub target from) D3Y) as [L1 _]; [vm_compute; reflexivity ..|]. destruct (len_ex64 up D3Y) as [L2 _]; [vm_compute; reflexivity ..|].
    destruct (len_ex64 (v3_cross (v3_normalize up) (v3_normalize (p3_sub target from))) D3Y) as [L3 S]; [vm_compute; reflexivity ..|]. destruct t_u64 as [T U].
    split; [|exact S]. unfold LookOk. cbv zeta. split; [exact L1|]. split; [exact L2|]. split; [exact L3|]. split; [reflexivity|]. split; [lra|].
    unfold Rsum3, toV3, RP3, from. cbn [v3x v3y v3z p3x p3y p3z]. rewrite R0, R2, R3. rewrite !Rabs_pos_eq by lra. lra.
  - intros prof. eexists. split; [unfold t3_look_at; rewrite inv4_ok by (vm_compute; reflexivity); reflexivity|]. split; intros []; vm_compute; reflexivity.
Qed.
