(** Theorems: C101 (directions in floating point).
    [A] ranges over f32 and f64 on every platform, and exact reals extended with infinities and NaN (where the bounds are 0). *)
From Coq Require Import Bool NArith ZArith Reals List Lia Lra.
From Flocq Require Import Core.Defs IEEE754.BinarySingleNaN.
From Verif Require Import Scalar Types Vector2 Vector3 Point2 Point3 Float XReal Arith SpecOrder SpecFloat SpecErr SpecReal ExVals FloatErr FloatDir.
Local Open Scope R_scope.
(** * C101: the length of a scaled vector *)
Theorem C101_length_of_scaled_2d : forall (A : arith) (v : Vector2 (num A)) (s : num A), let w := v2_mul v s in
  Finite (v2_dot v v) -> min_subnormal A <= unit_roundoff A * real_of (v2_dot v v) -> Finite (v2_dot w w) -> min_subnormal A <= unit_roundoff A * real_of (v2_dot w w) ->
  Rabs (real_of (v2_length w) - Rabs (real_of s) * real_of (v2_length v)) <= 12 * unit_roundoff A * (Rabs (real_of s) * real_of (v2_length v)).
Proof. exact C101_length_of_scaled_2d_pf. Qed.
Print Assumptions C101_length_of_scaled_2d.
Theorem C101_length_of_scaled_3d : forall (A : arith) (v : Vector3 (num A)) (s : num A), let w := v3_mul v s in
  Finite (v3_dot v v) -> min_subnormal A <= unit_roundoff A * real_of (v3_dot v v) -> Finite (v3_dot w w) -> min_subnormal A <= unit_roundoff A * real_of (v3_dot w w) ->
  Rabs (real_of (v3_length w) - Rabs (real_of s) * real_of (v3_length v)) <= 12 * unit_roundoff A * (Rabs (real_of s) * real_of (v3_length v)).
Proof. exact C101_length_of_scaled_3d_pf. Qed.
Print Assumptions C101_length_of_scaled_3d.
(** * C101: normalizing forgets the scale, up to sign and rounding *)
Theorem C101_normalize_of_scaled_2d : forall (A : arith) (v : Vector2 (num A)) (s : num A), let w := v2_mul v s in
  Finite (v2_dot v v) -> min_subnormal A <= unit_roundoff A * real_of (v2_dot v v) -> 0 < Rnorm2 (RV2 v) ->
  Finite (v2_dot w w) -> min_subnormal A <= unit_roundoff A * real_of (v2_dot w w) -> 0 < Rnorm2 (RV2 w) ->
  forall d, let n := vcoord2 (RV2 v) d / Rnorm2 (RV2 v) in let u := unit_roundoff A in
  (0 < real_of s -> Rabs (real_of (vcoord2 (v2_normalize w) d) - real_of (vcoord2 (v2_normalize v) d)) <= 17 * u * Rabs n + u * u) /\
  (real_of s < 0 -> Rabs (real_of (vcoord2 (v2_normalize w) d) + real_of (vcoord2 (v2_normalize v) d)) <= 17 * u * Rabs n + u * u).
Proof. exact C101_normalize_of_scaled_2d_pf. Qed.
Print Assumptions C101_normalize_of_scaled_2d.
Theorem C101_normalize_of_scaled_3d : forall (A : arith) (v : Vector3 (num A)) (s : num A), let w := v3_mul v s in
  Finite (v3_dot v v) -> min_subnormal A <= unit_roundoff A * real_of (v3_dot v v) -> 0 < Rnorm3 (RV3 v) ->
  Finite (v3_dot w w) -> min_subnormal A <= unit_roundoff A * real_of (v3_dot w w) -> 0 < Rnorm3 (RV3 w) ->
  forall d, let n := vcoord3 (RV3 v) d / Rnorm3 (RV3 v) in let u := unit_roundoff A in
  (0 < real_of s -> Rabs (real_of (vcoord3 (v3_normalize w) d) - real_of (vcoord3 (v3_normalize v) d)) <= 17 * u * Rabs n + u * u) /\
  (real_of s < 0 -> Rabs (real_of (vcoord3 (v3_normalize w) d) + real_of (vcoord3 (v3_normalize v) d)) <= 17 * u * Rabs n + u * u).
Proof. exact C101_normalize_of_scaled_3d_pf. Qed.
Print Assumptions C101_normalize_of_scaled_3d.
(** * C101: normalizing twice *)
Theorem C101_normalize_twice_2d : forall (A : arith) (v : Vector2 (num A)), Finite (v2_dot v v) -> min_subnormal A <= unit_roundoff A * real_of (v2_dot v v) -> 0 < Rnorm2 (RV2 v) ->
  let n := v2_normalize v in VFinite2 (v2_normalize n) /\
  forall d, Rabs (real_of (vcoord2 (v2_normalize n) d) - real_of (vcoord2 n d)) <= 16 * unit_roundoff A * Rabs (real_of (vcoord2 n d)) + min_subnormal A.
Proof. exact C101_normalize_twice_2d_pf. Qed.
Print Assumptions C101_normalize_twice_2d.
Theorem C101_normalize_twice_3d : forall (A : arith) (v : Vector3 (num A)), Finite (v3_dot v v) -> min_subnormal A <= unit_roundoff A * real_of (v3_dot v v) -> 0 < Rnorm3 (RV3 v) ->
  let n := v3_normalize v in VFinite3 (v3_normalize n) /\
  forall d, Rabs (real_of (vcoord3 (v3_normalize n) d) - real_of (vcoord3 n d)) <= 16 * unit_roundoff A * Rabs (real_of (vcoord3 n d)) + min_subnormal A.
Proof. exact C101_normalize_twice_3d_pf. Qed.
Print Assumptions C101_normalize_twice_3d.
(** * C101: the cosine of the angle between two vectors *)
Theorem C101_cosine_2d : forall (A : arith) (a b : Vector2 (num A)), Finite (v2_dot a a) -> min_subnormal A <= unit_roundoff A * real_of (v2_dot a a) -> 0 < Rnorm2 (RV2 a) ->
  Finite (v2_dot b b) -> min_subnormal A <= unit_roundoff A * real_of (v2_dot b b) -> 0 < Rnorm2 (RV2 b) ->
  Finite (v2_dot (v2_normalize a) (v2_normalize b)) /\
  Rabs (real_of (v2_dot (v2_normalize a) (v2_normalize b)) - Rdot2 (RV2 a) (RV2 b) / (Rnorm2 (RV2 a) * Rnorm2 (RV2 b))) <= 18 * unit_roundoff A.
Proof. exact C101_cosine_2d_pf. Qed.
Print Assumptions C101_cosine_2d.
Theorem C101_cosine_3d : forall (A : arith) (a b : Vector3 (num A)), Finite (v3_dot a a) -> min_subnormal A <= unit_roundoff A * real_of (v3_dot a a) -> 0 < Rnorm3 (RV3 a) ->
  Finite (v3_dot b b) -> min_subnormal A <= unit_roundoff A * real_of (v3_dot b b) -> 0 < Rnorm3 (RV3 b) ->
  Finite (v3_dot (v3_normalize a) (v3_normalize b)) /\
  Rabs (real_of (v3_dot (v3_normalize a) (v3_normalize b)) - Rdot3 (RV3 a) (RV3 b) / (Rnorm3 (RV3 a) * Rnorm3 (RV3 b))) <= 18 * unit_roundoff A.
Proof. exact C101_cosine_3d_pf. Qed.
Print Assumptions C101_cosine_3d.
(** * C101: the slack is needed: in f64 normalizing (1,1) twice, or scaled by 3, gives other numbers than normalizing it once *)
Theorem C101_not_idempotent : let v := mkVector2 (d64 1 0) (d64 1 0) : Vector2 (num A64) in let n := v2_normalize v in
  Lt (v2x n) (v2x (v2_normalize n)) /\ Lt (v2x n) (v2x (v2_normalize (v2_mul v (d64 3 0)))).
Proof. exact C101_not_idempotent_pf. Qed.
Print Assumptions C101_not_idempotent.
(* the hypotheses hold for this vector and its multiple *)
Example C101_example : let v := mkVector2 (d64 1 0) (d64 1 0) : Vector2 (num A64) in let w := v2_mul v (d64 3 0) in
  (Finite (v2_dot v v) /\ min_subnormal A64 <= unit_roundoff A64 * real_of (v2_dot v v) /\ 0 < Rnorm2 (RV2 v)) /\
  (Finite (v2_dot w w) /\ min_subnormal A64 <= unit_roundoff A64 * real_of (v2_dot w w) /\ 0 < Rnorm2 (RV2 w)).
Proof.
  cbv zeta. destruct (real_of_1 (A := A64)) as [F V].
  assert (K : forall v : Vector2 (num A64), Finite (v2_dot v v) -> Le sone (v2_dot v v) -> Finite (v2x v) -> Le sone (v2x v) -> Finite (v2_dot v v) /\ min_subnormal A64 <= unit_roundoff A64 * real_of (v2_dot v v) /\ 0 < Rnorm2 (RV2 v)).
  { intros v F1 L1 F2 L2. split; [exact F1|]. split; [now apply dot_ge_1_ok|]. apply Rlt_le_trans with 1; [lra|]. apply Rle_trans with (Rabs (vcoord2 (RV2 v) D2X)); [|apply comp_le_norm2].
    eapply Rle_trans; [|apply Rle_abs]. rewrite <- V. now apply Le_real. }
  split; apply K; vm_compute; reflexivity.
Qed.
