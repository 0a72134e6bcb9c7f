(** Theorems: C84 (the algebra of the transform constructors in floating point).
    [A] ranges over f32 and f64 on every platform, and exact reals (where unit_roundoff and min_subnormal are 0). *)
From Coq Require Import Bool NArith ZArith Reals List Lra Lia.
From Verif Require Import Scalar Types Vector2 Vector3 Point2 Point3 Ray BoundingBox2 BoundingBox3 Transform2 Transform3 Float
  XReal Arith SpecOrder SpecStruct SpecFloat SpecReal SpecErr SpecSame SpecRot SpecAlg ExVals ErrBase FloatErr FloatRot PropsFloatRot FloatAlg.
Import ListNotations.
Local Open Scope R_scope.
(** * C84: identity is neutral, scalings multiply *)
Theorem C84_identity_neutral_2d : forall (A : arith) (t : Transform2 (num A)), MFinite3 (t2_forward t) -> MFinite3 (t2_inv t) ->
  t2_eq (t2_and_then t2_identity t) t = true /\ t2_eq (t2_and_then t t2_identity) t = true.
Proof. exact C84_identity_neutral_2d_pf. Qed.
Print Assumptions C84_identity_neutral_2d.
Theorem C84_identity_neutral_3d : forall (A : arith) (t : Transform3 (num A)), MFinite4 (t3_forward t) -> MFinite4 (t3_inv t) ->
  t3_eq (t3_and_then t3_identity t) t = true /\ t3_eq (t3_and_then t t3_identity) t = true.
Proof. exact C84_identity_neutral_3d_pf. Qed.
Print Assumptions C84_identity_neutral_3d.
Theorem C84_scale_compose_2d : forall (A : arith) (ax ay bx by_ : num A), Finite ax -> Finite ay -> Finite bx -> Finite by_ ->
  let t := t2_and_then (t2_scale ax ay) (t2_scale bx by_) in
  m3_eq (t2_forward t) (t2_forward (t2_scale (smul bx ax) (smul by_ ay))) = true /\
  (Finite (srecip ax) -> Finite (srecip ay) -> Finite (srecip bx) -> Finite (srecip by_) ->
   m3_eq (t2_inv t) (t2_forward (t2_scale (smul (srecip ax) (srecip bx)) (smul (srecip ay) (srecip by_)))) = true) /\
  t2_scale_uniform ax = t2_scale ax ax.
Proof. exact C84_scale_compose_2d_pf. Qed.
Print Assumptions C84_scale_compose_2d.
Theorem C84_scale_compose_3d : forall (A : arith) (ax ay az bx by_ bz : num A), Finite ax -> Finite ay -> Finite az -> Finite bx -> Finite by_ -> Finite bz ->
  let t := t3_and_then (t3_scale ax ay az) (t3_scale bx by_ bz) in
  m4_eq (t3_forward t) (t3_forward (t3_scale (smul bx ax) (smul by_ ay) (smul bz az))) = true /\
  (Finite (srecip ax) -> Finite (srecip ay) -> Finite (srecip az) -> Finite (srecip bx) -> Finite (srecip by_) -> Finite (srecip bz) ->
   m4_eq (t3_inv t) (t3_forward (t3_scale (smul (srecip ax) (srecip bx)) (smul (srecip ay) (srecip by_)) (smul (srecip az) (srecip bz)))) = true) /\
  t3_scale_uniform ax = t3_scale ax ax ax.
Proof. exact C84_scale_compose_3d_pf. Qed.
Print Assumptions C84_scale_compose_3d.
(** * C84: rotations by opposite angles undo each other, rotating by no angle is the identity, and rotation angles add *)
Theorem C84_rotation_opposite_2d : forall (A : arith) (x y : num A), SinCosOpposite x y -> t2_eq (t2_rotate y) (t2_inverse (t2_rotate x)) = true.
Proof. exact C84_rotation_opposite_2d_pf. Qed.
Print Assumptions C84_rotation_opposite_2d.
Theorem C84_rotation_opposite_3d : forall (A : arith) (x y : num A), SinCosOpposite x y ->
  t3_eq (t3_rotate_x y) (t3_inverse (t3_rotate_x x)) = true /\
  t3_eq (t3_rotate_y y) (t3_inverse (t3_rotate_y x)) = true /\
  t3_eq (t3_rotate_z y) (t3_inverse (t3_rotate_z x)) = true.
Proof. exact C84_rotation_opposite_3d_pf. Qed.
Print Assumptions C84_rotation_opposite_3d.
Theorem C84_rotation_none : forall (A : arith) (x : num A), SinCosNone x ->
  t2_eq (t2_rotate x) t2_identity = true /\ t3_eq (t3_rotate_x x) t3_identity = true /\ t3_eq (t3_rotate_y x) t3_identity = true /\ t3_eq (t3_rotate_z x) t3_identity = true.
Proof. exact C84_rotation_none_pf. Qed.
Print Assumptions C84_rotation_none.
Theorem C84_rotation_angles_add_2d : forall (A : arith) (x y : num A) (e : R), SinCosWithin x e -> SinCosWithin y e -> 0 <= e <= 1 / 128 ->
  let t := t2_and_then (t2_rotate x) (t2_rotate y) in let a := real_of x + real_of y in
  (MFinite3 (t2_forward t) /\ forall r c, (r < 3)%nat -> (c < 3)%nat -> Rabs (ent3 (RM3 (t2_forward t)) r c - ent3 (Mrot a) r c) <= 5 * e + 6 * unit_roundoff A) /\
  (MFinite3 (t2_inv t) /\ forall r c, (r < 3)%nat -> (c < 3)%nat -> Rabs (ent3 (RM3 (t2_inv t)) r c - ent3 (Mrot (- a)) r c) <= 5 * e + 6 * unit_roundoff A).
Proof. exact C84_rotation_angles_add_2d_pf. Qed.
Print Assumptions C84_rotation_angles_add_2d.
Theorem C84_rotation_angles_add_3d : forall (A : arith) (x y : num A) (e : R), SinCosWithin x e -> SinCosWithin y e -> 0 <= e <= 1 / 128 ->
  let a := real_of x + real_of y in
  forall (rot : num A -> Transform3 (num A)) (M : R -> Matrix4x4 R),
    In (rot, M) [(t3_rotate_x, Mrot_x); (t3_rotate_y, Mrot_y); (t3_rotate_z, Mrot_z)] ->
  let t := t3_and_then (rot x) (rot y) in
  (MFinite4 (t3_forward t) /\ forall r c, (r < 4)%nat -> (c < 4)%nat -> Rabs (ent4 (RM4 (t3_forward t)) r c - ent4 (M a) r c) <= 5 * e + 6 * unit_roundoff A) /\
  (MFinite4 (t3_inv t) /\ forall r c, (r < 4)%nat -> (c < 4)%nat -> Rabs (ent4 (RM4 (t3_inv t)) r c - ent4 (M (- a)) r c) <= 5 * e + 6 * unit_roundoff A).
Proof. exact C84_rotation_angles_add_3d_pf. Qed.
Print Assumptions C84_rotation_angles_add_3d.
(** * C84: rotating about a coordinate axis with rotate_axis *)
Theorem C84_axis_rotation : forall (A : arith) (angle : num A), (let (s, c) := ssin_cos angle in Finite s /\ Finite c /\ Rabs (real_of c) <= 1) ->
  forall (axis : Vector3 (num A)) (rot : num A -> Transform3 (num A)) (i : nat),
    In (axis, rot, i) [(v3_x_axis, t3_rotate_x, 0%nat); (v3_y_axis, t3_rotate_y, 1%nat); (v3_z_axis, t3_rotate_z, 2%nat)] ->
  let t := t3_rotate_axis axis angle in let t' := rot angle in
  forall (side : Transform3 (num A) -> Matrix4x4 (num A)), side = t3_forward \/ side = t3_inv ->
  MFinite4 (side t) /\ Rabs (ent4 (RM4 (side t)) i i - 1) <= 6 * unit_roundoff A /\
  forall r c, (r < 4)%nat -> (c < 4)%nat -> (r, c) <> (i, i) -> ent4 (RM4 (side t)) r c = ent4 (RM4 (side t')) r c.
Proof. exact C84_axis_rotation_pf. Qed.
Print Assumptions C84_axis_rotation.
Example C84_example : SinCosWithin (d64 1 (-7) : num A64) (1 / 128) /\ SinCosOpposite (d64 1 (-7) : num A64) (nd64 1 (-7)) /\ SinCosNone (d64 0 0 : num A64) /\
  (forall a, SinCosWithin (Fin a : num EXACT) 0 /\ SinCosOpposite (Fin a : num EXACT) (Fin (- a))) /\ SinCosNone (Fin 0 : num EXACT) /\
  (let (s, c) := ssin_cos (d64 1 (-7) : num A64) in Finite s /\ Finite c /\ Rabs (real_of c) <= 1) /\
  MFinite3 (t2_forward (t2_scale (d64 3 0) (d64 1 (-1)))) /\ Finite (srecip (d64 3 0)).
Proof.
  split; [exact (proj1 C78_example)|].
  split; [vm_compute; repeat split|]. split; [vm_compute; repeat split|].
  split. { intros a. split; [apply C78_example|]. unfold SinCosOpposite. cbn. rewrite sin_neg, cos_neg. split; [reflexivity|]. split; [reflexivity|]. split; apply andb_true_intro; split; apply Raux.Rle_bool_true; lra. }
  split. { unfold SinCosNone. cbn. rewrite sin_0, cos_0. split; apply andb_true_intro; split; apply Raux.Rle_bool_true; lra. }
  split. { change (ssin_cos (d64 1 (-7) : num A64)) with (d64 1 (-7) : num A64, sone : num A64). split; [vm_compute; reflexivity|]. split; [vm_compute; reflexivity|]. rewrite (proj2 (real_of_1 (A:=A64))), Rabs_R1. lra. }
  split; [repeat (constructor; [vm_compute; reflexivity|]); constructor | vm_compute; reflexivity].
Qed.
