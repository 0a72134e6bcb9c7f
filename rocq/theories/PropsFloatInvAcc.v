(** Theorems: C79 (accuracy of computed inverses).
    [A] ranges over f32 and f64 on every platform, and exact reals (where unit_roundoff and min_subnormal are 0). *)
From Coq Require Import Bool NArith ZArith Reals List Lra Lia.
From Verif Require Import Scalar Types Vector2 Vector3 Point2 Point3 Ray BoundingBox2 BoundingBox3 Transform2 Transform3 Float
  XReal Arith SpecOrder SpecStruct SpecFloat SpecReal SpecErr SpecInv ExVals FloatInv FloatInvAcc.
Import ListNotations.
Local Open Scope R_scope.
(** * C79: the error of a computed inverse *)
Theorem C79_inverse_accurate_3x3 : forall (A : arith) (m i : Matrix3x3 (num A)) (B : R), Forall (fun x => Rabs (real_of x) <= B) (m3_comps m) ->
  m3_inverse m = Ok i -> MFinite3 i -> (exists r c, (r < 3)%nat /\ (c < 3)%nat /\ ent3 (RM3 i) r c <> 0) ->
  let M := ent3 (RM3 m) in let u := unit_roundoff A in let t := min_subnormal A in
  let E := ((1 + u) ^ 7 - 1) * mat_perm 3 (mat_abs M) + 6 * t * (B + 1) in E < Rabs (mat_det 3 M) ->
  exists N : matrix, mat_eq 3 (mat_mul 3 M N) mat_id /\ mat_eq 3 (mat_mul 3 N M) mat_id /\
  forall r c, (r < 3)%nat -> (c < 3)%nat ->
    Rabs (ent3 (RM3 i) r c - N r c) <= quotient_error (((1 + u) ^ 3 - 1) * cof_size 3 M r c + 2 * t) E t (mat_det 3 M) (N r c).
Proof. exact C79_inverse_accurate_3x3_pf. Qed.
Print Assumptions C79_inverse_accurate_3x3.
Theorem C79_inverse_accurate_4x4 : forall (A : arith) (prof : profile) (m i : Matrix4x4 (num A)) (B : R), Forall (fun x => Rabs (real_of x) <= B) (m4_comps m) ->
  m4_inverse prof m = Ret (Ok i) -> MFinite4 i -> (exists r c, (r < 4)%nat /\ (c < 4)%nat /\ ent4 (RM4 i) r c <> 0) ->
  let M := ent4 (RM4 m) in let u := unit_roundoff A in let t := min_subnormal A in
  let E := ((1 + u) ^ 11 - 1) * mat_perm 4 (mat_abs M) + t * (24 * B * (B + 1) + 4) in E < Rabs (mat_det 4 M) ->
  exists N : matrix, mat_eq 4 (mat_mul 4 M N) mat_id /\ mat_eq 4 (mat_mul 4 N M) mat_id /\
  forall r c, (r < 4)%nat -> (c < 4)%nat ->
    Rabs (ent4 (RM4 i) r c - N r c) <= quotient_error (((1 + u) ^ 8 - 1) * cof_size 4 M r c + 6 * t * (B + 1)) E t (mat_det 4 M) (N r c).
Proof. exact C79_inverse_accurate_4x4_pf. Qed.
Print Assumptions C79_inverse_accurate_4x4.
(** the hypotheses are met, in f64: a 3x3 and a 4x4 matrix with determinant 105 and entries of size up to 9 *)
Example C79_example_3x3 : exists i, m3_inverse inv_ex3 = Ok i /\ MFinite3 i /\ ent3 (RM3 i) 0%nat 0%nat <> 0 /\
  Forall (fun x => Rabs (real_of x) <= 9) (m3_comps inv_ex3) /\ mat_det 3 (ent3 (RM3 inv_ex3)) = 105 /\
  ((1 + unit_roundoff A64) ^ 7 - 1) * mat_perm 3 (mat_abs (ent3 (RM3 inv_ex3))) + 6 * min_subnormal A64 * (9 + 1) < Rabs (mat_det 3 (ent3 (RM3 inv_ex3))).
Proof.
  assert (R2 : real_of (A := A64) (d64 2 0) = 2) by (apply real_flit; reflexivity). assert (R7 : real_of (A := A64) (d64 7 0) = 7) by (apply real_flit; reflexivity).
  assert (R3 : real_of (A := A64) (nd64 3 0) = -3) by (apply real_flit; reflexivity). assert (R1 : real_of (A := A64) (d64 1 0) = 1) by (apply real_flit; reflexivity).
  assert (R5 : real_of (A := A64) (d64 5 0) = 5) by (apply real_flit; reflexivity). assert (R0 : real_of (A := A64) (d64 0 0) = 0) by (apply real_flit; reflexivity).
  assert (R4 : real_of (A := A64) (d64 4 0) = 4) by (apply real_flit; reflexivity). assert (R9 : real_of (A := A64) (nd64 9 0) = -9) by (apply real_flit; reflexivity).
  assert (R6 : real_of (A := A64) (d64 6 0) = 6) by (apply real_flit; reflexivity).
  eexists. split; [apply inv3_ok; vm_compute; reflexivity|]. split; [repeat constructor; vm_compute; reflexivity|].
  split; [apply (nz_real (A := A64) (m3_0 (inv3 inv_ex3))); vm_compute; reflexivity|].
  split. { unfold m3_comps, inv_ex3. cbn [m3_0 m3_1 m3_2 m3_3 m3_4 m3_5 m3_6 m3_7 m3_8]. repeat (constructor; [rewrite ?R0, ?R1, ?R2, ?R3, ?R4, ?R5, ?R6, ?R7, ?R9; apply Rabs_le; lra|]). constructor. }
  assert (D : mat_det 3 (ent3 (RM3 inv_ex3)) = 105).
  { unfold RM3, inv_ex3. cbn [m3_0 m3_1 m3_2 m3_3 m3_4 m3_5 m3_6 m3_7 m3_8]. rewrite R0, R1, R2, R3, R4, R5, R6, R7, R9.
    cbv [mat_det mat_minor sum_n ent3 nth Nat.ltb Nat.leb Nat.mul Nat.add pow m3_0 m3_1 m3_2 m3_3 m3_4 m3_5 m3_6 m3_7 m3_8]. lra. }
  assert (P : mat_perm 3 (mat_abs (ent3 (RM3 inv_ex3))) = 189).
  { unfold RM3, inv_ex3. cbn [m3_0 m3_1 m3_2 m3_3 m3_4 m3_5 m3_6 m3_7 m3_8]. rewrite R0, R1, R2, R3, R4, R5, R6, R7, R9.
    cbv [mat_perm mat_abs mat_minor sum_n ent3 nth Nat.ltb Nat.leb Nat.mul Nat.add pow m3_0 m3_1 m3_2 m3_3 m3_4 m3_5 m3_6 m3_7 m3_8].
    rewrite (Rabs_left (-3)), (Rabs_left (-9)) by lra. rewrite !Rabs_pos_eq by lra. lra. }
  split; [exact D|]. rewrite D, P, Rabs_pos_eq by lra. pose proof (pow_small A64 7 ltac:(lia)). pose proof (t_small A64). lra.
Qed.
Example C79_example_4x4 : exists i, (forall prof, m4_inverse prof inv_ex4 = Ret (Ok i)) /\ MFinite4 i /\ ent4 (RM4 i) 0%nat 0%nat <> 0 /\
  Forall (fun x => Rabs (real_of x) <= 9) (m4_comps inv_ex4) /\ mat_det 4 (ent4 (RM4 inv_ex4)) = 105 /\
  ((1 + unit_roundoff A64) ^ 11 - 1) * mat_perm 4 (mat_abs (ent4 (RM4 inv_ex4))) + min_subnormal A64 * (24 * 9 * (9 + 1) + 4) < Rabs (mat_det 4 (ent4 (RM4 inv_ex4))).
Proof.
  assert (R2 : real_of (A := A64) (d64 2 0) = 2) by (apply real_flit; reflexivity). assert (R7 : real_of (A := A64) (d64 7 0) = 7) by (apply real_flit; reflexivity).
  assert (R3 : real_of (A := A64) (nd64 3 0) = -3) by (apply real_flit; reflexivity). assert (R1 : real_of (A := A64) (d64 1 0) = 1) by (apply real_flit; reflexivity).
  assert (R5 : real_of (A := A64) (d64 5 0) = 5) by (apply real_flit; reflexivity). assert (R0 : real_of (A := A64) (d64 0 0) = 0) by (apply real_flit; reflexivity).
  assert (R4 : real_of (A := A64) (d64 4 0) = 4) by (apply real_flit; reflexivity). assert (R9 : real_of (A := A64) (nd64 9 0) = -9) by (apply real_flit; reflexivity).
  assert (R6 : real_of (A := A64) (d64 6 0) = 6) by (apply real_flit; reflexivity). assert (Rm : real_of (A := A64) (nd64 2 0) = -2) by (apply real_flit; reflexivity).
  eexists. split; [intros prof; apply inv4_ok; vm_compute; reflexivity|]. split; [repeat constructor; vm_compute; reflexivity|].
  split; [apply (nz_real (A := A64) (m4_0 (m4_divs (Adj4.adj4 inv_ex4) (Adj4.det4 inv_ex4)))); vm_compute; reflexivity|].
  split. { unfold m4_comps, inv_ex4. cbn [m4_0 m4_1 m4_2 m4_3 m4_4 m4_5 m4_6 m4_7 m4_8 m4_9 m4_10 m4_11 m4_12 m4_13 m4_14 m4_15]. repeat (constructor; [rewrite ?R0, ?R1, ?R2, ?R3, ?R4, ?R5, ?R6, ?R7, ?R9, ?Rm; apply Rabs_le; lra|]). constructor. }
  assert (D : mat_det 4 (ent4 (RM4 inv_ex4)) = 105).
  { unfold RM4, inv_ex4. cbn [m4_0 m4_1 m4_2 m4_3 m4_4 m4_5 m4_6 m4_7 m4_8 m4_9 m4_10 m4_11 m4_12 m4_13 m4_14 m4_15]. rewrite R0, R1, R2, R3, R4, R5, R6, R7, R9, Rm.
    cbv [mat_det mat_minor sum_n ent4 nth Nat.ltb Nat.leb Nat.mul Nat.add pow m4_0 m4_1 m4_2 m4_3 m4_4 m4_5 m4_6 m4_7 m4_8 m4_9 m4_10 m4_11 m4_12 m4_13 m4_14 m4_15]. lra. }
  assert (P : mat_perm 4 (mat_abs (ent4 (RM4 inv_ex4))) = 189).
  { unfold RM4, inv_ex4. cbn [m4_0 m4_1 m4_2 m4_3 m4_4 m4_5 m4_6 m4_7 m4_8 m4_9 m4_10 m4_11 m4_12 m4_13 m4_14 m4_15]. rewrite R0, R1, R2, R3, R4, R5, R6, R7, R9, Rm.
    cbv [mat_perm mat_abs mat_minor sum_n ent4 nth Nat.ltb Nat.leb Nat.mul Nat.add pow m4_0 m4_1 m4_2 m4_3 m4_4 m4_5 m4_6 m4_7 m4_8 m4_9 m4_10 m4_11 m4_12 m4_13 m4_14 m4_15].
    rewrite (Rabs_left (-3)), (Rabs_left (-9)), (Rabs_left (-2)) by lra. rewrite !Rabs_pos_eq by lra. lra. }
  split; [exact D|]. rewrite D, P, Rabs_pos_eq by lra. pose proof (pow_small A64 11 ltac:(lia)). pose proof (t_small A64). lra.
Qed.
