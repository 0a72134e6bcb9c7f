(** Theorems: C77 (Cauchy-Schwarz and the triangle inequality for the computed lengths).
    [A] ranges over f32 and f64 on every platform, and exact reals (where unit_roundoff and min_subnormal are 0). *)
From Coq Require Import Bool NArith ZArith Reals List Lra Lia.
From Verif Require Import Scalar Types Vector2 Vector3 Point2 Point3 Ray BoundingBox2 BoundingBox3 Transform2 Transform3 Float
  XReal Arith SpecOrder SpecStruct SpecFloat SpecReal SpecErr ExVals FloatErr FloatTri.
Local Open Scope R_scope.
(** * C77: the computed dot product is at most the product of the computed lengths, up to 17 units of roundoff *)
Theorem C77_dot_at_most_lengths_2d : forall (A : arith) (a b : Vector2 (num A)), Finite (v2_dot a b) ->
  Finite (v2_dot a a) -> Finite (v2_dot b b) -> min_subnormal A <= unit_roundoff A * real_of (v2_dot a a) -> min_subnormal A <= unit_roundoff A * real_of (v2_dot b b) ->
  Rabs (real_of (v2_dot a b)) <= (1 + 17 * unit_roundoff A) * (real_of (v2_length a) * real_of (v2_length b)).
Proof. exact C77_dot_at_most_lengths_2d_pf. Qed.
Print Assumptions C77_dot_at_most_lengths_2d.
Theorem C77_dot_at_most_lengths_3d : forall (A : arith) (a b : Vector3 (num A)), Finite (v3_dot a b) ->
  Finite (v3_dot a a) -> Finite (v3_dot b b) -> min_subnormal A <= unit_roundoff A * real_of (v3_dot a a) -> min_subnormal A <= unit_roundoff A * real_of (v3_dot b b) ->
  Rabs (real_of (v3_dot a b)) <= (1 + 17 * unit_roundoff A) * (real_of (v3_length a) * real_of (v3_length b)).
Proof. exact C77_dot_at_most_lengths_3d_pf. Qed.
Print Assumptions C77_dot_at_most_lengths_3d.
(** * C77: the computed distances satisfy the triangle inequality, up to 15 units of roundoff *)
Theorem C77_distance_triangle_2d : forall (A : arith) (p q r : Point2 (num A)),
  (forall x y, (x = p /\ y = q) \/ (x = q /\ y = r) \/ (x = p /\ y = r) ->
     Finite (v2_dot (p2_sub y x) (p2_sub y x)) /\ min_subnormal A <= unit_roundoff A * real_of (v2_dot (p2_sub y x) (p2_sub y x))) ->
  real_of (p2_distance p r) <= (1 + 15 * unit_roundoff A) * (real_of (p2_distance p q) + real_of (p2_distance q r)).
Proof. exact C77_distance_triangle_2d_pf. Qed.
Print Assumptions C77_distance_triangle_2d.
Theorem C77_distance_triangle_3d : forall (A : arith) (p q r : Point3 (num A)),
  (forall x y, (x = p /\ y = q) \/ (x = q /\ y = r) \/ (x = p /\ y = r) ->
     Finite (v3_dot (p3_sub y x) (p3_sub y x)) /\ min_subnormal A <= unit_roundoff A * real_of (v3_dot (p3_sub y x) (p3_sub y x))) ->
  real_of (p3_distance p r) <= (1 + 15 * unit_roundoff A) * (real_of (p3_distance p q) + real_of (p3_distance q r)).
Proof. exact C77_distance_triangle_3d_pf. Qed.
Print Assumptions C77_distance_triangle_3d.
(** * C77: the computed length of a computed sum is at most the sum of the computed lengths, up to 12 units of roundoff *)
Theorem C77_length_triangle_2d : forall (A : arith) (a b : Vector2 (num A)),
  (forall x, x = a \/ x = b \/ x = v2_add a b -> Finite (v2_dot x x) /\ min_subnormal A <= unit_roundoff A * real_of (v2_dot x x)) ->
  real_of (v2_length (v2_add a b)) <= (1 + 12 * unit_roundoff A) * (real_of (v2_length a) + real_of (v2_length b)).
Proof. exact C77_length_triangle_2d_pf. Qed.
Print Assumptions C77_length_triangle_2d.
Theorem C77_length_triangle_3d : forall (A : arith) (a b : Vector3 (num A)),
  (forall x, x = a \/ x = b \/ x = v3_add a b -> Finite (v3_dot x x) /\ min_subnormal A <= unit_roundoff A * real_of (v3_dot x x)) ->
  real_of (v3_length (v3_add a b)) <= (1 + 12 * unit_roundoff A) * (real_of (v3_length a) + real_of (v3_length b)).
Proof. exact C77_length_triangle_3d_pf. Qed.
Print Assumptions C77_length_triangle_3d.
(** * C77: the dot product of two computed unit vectors is at most 1, up to 20 units of roundoff *)
Theorem C77_unit_dot_2d : forall (A : arith) (a b : Vector2 (num A)),
  (forall x, x = a \/ x = b -> Finite (v2_dot x x) /\ min_subnormal A <= unit_roundoff A * real_of (v2_dot x x) /\ 0 < Rnorm2 (RV2 x)) ->
  Finite (v2_dot (v2_normalize a) (v2_normalize b)) /\ Rabs (real_of (v2_dot (v2_normalize a) (v2_normalize b))) <= 1 + 20 * unit_roundoff A.
Proof. exact C77_unit_dot_2d_pf. Qed.
Print Assumptions C77_unit_dot_2d.
Theorem C77_unit_dot_3d : forall (A : arith) (a b : Vector3 (num A)),
  (forall x, x = a \/ x = b -> Finite (v3_dot x x) /\ min_subnormal A <= unit_roundoff A * real_of (v3_dot x x) /\ 0 < Rnorm3 (RV3 x)) ->
  Finite (v3_dot (v3_normalize a) (v3_normalize b)) /\ Rabs (real_of (v3_dot (v3_normalize a) (v3_normalize b))) <= 1 + 20 * unit_roundoff A.
Proof. exact C77_unit_dot_3d_pf. Qed.
Print Assumptions C77_unit_dot_3d.
(** * C77: the slack is needed: each of the three laws fails exactly in f64 *)
Theorem C77_exact_laws_refuted : let v := mkVector3 (d64 1 0) (d64 1 0) (d64 1 0) : Vector3 (num A64) in let w := mkVector2 (d64 1 0) (d64 5 0) : Vector2 (num A64) in
  let p k := mkPoint2 (d64 k 0) (d64 k 0) : Point2 (num A64) in
  Lt sone (v3_dot (v3_normalize v) (v3_normalize v)) /\ Lt sone (v2_dot (v2_normalize w) (v2_normalize w)) /\
  Lt (smul (v3_length v) (v3_length v)) (v3_dot v v) /\ Lt (smul (v2_length w) (v2_length w)) (v2_dot w w) /\
  Lt (sadd (p2_distance (p 0%Z) (p 1%Z)) (p2_distance (p 1%Z) (p 4%Z))) (p2_distance (p 0%Z) (p 4%Z)).
Proof. exact C77_exact_laws_refuted_pf. Qed.
Print Assumptions C77_exact_laws_refuted.
(* the hypotheses hold for every vector whose squared length is at least 1 and does not overflow, here for the refuting values themselves *)
Example C77_example : let v := mkVector3 (d64 1 0) (d64 1 0) (d64 1 0) : Vector3 (num A64) in
  let p k := mkPoint2 (d64 k 0) (d64 k 0) : Point2 (num A64) in
  (Finite (v3_dot v v) /\ min_subnormal A64 <= unit_roundoff A64 * real_of (v3_dot v v) /\ 0 < Rnorm3 (RV3 v)) /\
  (forall x y, (x = p 0%Z /\ y = p 1%Z) \/ (x = p 1%Z /\ y = p 4%Z) \/ (x = p 0%Z /\ y = p 4%Z) ->
     Finite (v2_dot (p2_sub y x) (p2_sub y x)) /\ min_subnormal A64 <= unit_roundoff A64 * real_of (v2_dot (p2_sub y x) (p2_sub y x))) /\
  (let s := v3_add v v in Finite (v3_dot s s) /\ min_subnormal A64 <= unit_roundoff A64 * real_of (v3_dot s s)).
Proof.
  cbv zeta. split; [|split].
  - split; [vm_compute; reflexivity|]. split; [apply dot_ge_1_ok; vm_compute; reflexivity|].
    destruct (real_of_1 (A := A64)) as [F V]. apply Rlt_le_trans with 1; [lra|]. apply Rle_trans with (Rabs (vcoord3 (RV3 (mkVector3 (d64 1 0) (d64 1 0) (d64 1 0))) D3X)); [|apply comp_le_norm3].
    eapply Rle_trans; [|apply Rle_abs]. rewrite <- V. apply Le_real; vm_compute; reflexivity.
  - intros x y [[-> ->]|[[-> ->]|[-> ->]]]; (split; [vm_compute; reflexivity | apply dot_ge_1_ok; vm_compute; reflexivity]).
  - split; [vm_compute; reflexivity | apply dot_ge_1_ok; vm_compute; reflexivity].
Qed.
