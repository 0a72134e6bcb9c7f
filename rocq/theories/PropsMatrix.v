(** Property theorems in exact arithmetic: matrices (C37, C38, C51), rotations (C41, C42).
    Matrices of reals as functions of row and column, their product and determinant: SpecReal.v. *)
From Coq Require Import Bool NArith ZArith Reals List Lra.
From Verif Require Import Scalar Types Vector2 Vector3 Point2 Point3 Ray Transform2 Transform3
  XReal Arith SpecOrder SpecStruct SpecReal ExactMat.
Import ListNotations.
Local Open Scope R_scope.
(** ** C37: the matrix product *)
Theorem C37_product_entries_3x3 : forall (prof : profile) (a b : Matrix3x3 R) (r c : N), (r < 3)%N -> (c < 3)%N ->
  m3_get prof (m3_mul (XM3 a) (XM3 b)) r c = Ret (Fin (mat_mul 3 (ent3 a) (ent3 b) (N.to_nat r) (N.to_nat c))) /\
  m3_get prof (XM3 a) r c = Ret (Fin (ent3 a (N.to_nat r) (N.to_nat c))).
Proof. exact C37_product_entries_3x3_pf. Qed.
Print Assumptions C37_product_entries_3x3.
Theorem C37_product_entries_4x4 : forall (prof : profile) (a b : Matrix4x4 R) (r c : N), (r < 4)%N -> (c < 4)%N ->
  m4_get prof (m4_mul (XM4 a) (XM4 b)) r c = Ret (Fin (mat_mul 4 (ent4 a) (ent4 b) (N.to_nat r) (N.to_nat c))) /\
  m4_get prof (XM4 a) r c = Ret (Fin (ent4 a (N.to_nat r) (N.to_nat c))).
Proof. exact C37_product_entries_4x4_pf. Qed.
Print Assumptions C37_product_entries_4x4.
Theorem C37_product_algebra_3x3 : forall a b c : Matrix3x3 R,
  m3_mul (m3_mul (XM3 a) (XM3 b)) (XM3 c) = m3_mul (XM3 a) (m3_mul (XM3 b) (XM3 c)) /\
  m3_mul m3_identity (XM3 a) = XM3 a /\ m3_mul (XM3 a) m3_identity = XM3 a.
Proof. exact C37_product_algebra_3x3_pf. Qed.
Print Assumptions C37_product_algebra_3x3.
Theorem C37_product_algebra_4x4 : forall a b c : Matrix4x4 R,
  m4_mul (m4_mul (XM4 a) (XM4 b)) (XM4 c) = m4_mul (XM4 a) (m4_mul (XM4 b) (XM4 c)) /\
  m4_mul m4_identity (XM4 a) = XM4 a /\ m4_mul (XM4 a) m4_identity = XM4 a.
Proof. exact C37_product_algebra_4x4_pf. Qed.
Print Assumptions C37_product_algebra_4x4.
Theorem C37_scalar_entries_3x3 : forall (prof : profile) (a : Matrix3x3 R) (s : R) (r c : N), (r < 3)%N -> (c < 3)%N ->
  m3_get prof (m3_muls (XM3 a) (Fin s)) r c = Ret (Fin (ent3 a (N.to_nat r) (N.to_nat c) * s)) /\
  m3_get prof (m3_lmuls (Fin s) (XM3 a)) r c = Ret (Fin (ent3 a (N.to_nat r) (N.to_nat c) * s)) /\
  (s <> 0 -> m3_get prof (m3_divs (XM3 a) (Fin s)) r c = Ret (Fin (ent3 a (N.to_nat r) (N.to_nat c) / s))).
Proof. exact C37_scalar_entries_3x3_pf. Qed.
Print Assumptions C37_scalar_entries_3x3.
Theorem C37_scalar_entries_4x4 : forall (prof : profile) (a : Matrix4x4 R) (s : R) (r c : N), (r < 4)%N -> (c < 4)%N ->
  m4_get prof (m4_muls (XM4 a) (Fin s)) r c = Ret (Fin (ent4 a (N.to_nat r) (N.to_nat c) * s)) /\
  m4_get prof (m4_lmuls (Fin s) (XM4 a)) r c = Ret (Fin (ent4 a (N.to_nat r) (N.to_nat c) * s)) /\
  (s <> 0 -> m4_get prof (m4_divs (XM4 a) (Fin s)) r c = Ret (Fin (ent4 a (N.to_nat r) (N.to_nat c) / s))).
Proof. exact C37_scalar_entries_4x4_pf. Qed.
Print Assumptions C37_scalar_entries_4x4.
(** ** C38: the inverse *)
Theorem C38_inverse_ok_3x3 : forall m : Matrix3x3 R, mat_det 3 (ent3 m) <> 0 ->
  exists n : Matrix3x3 R, m3_inverse (XM3 m) = Ok (XM3 n) /\
    mat_eq 3 (mat_mul 3 (ent3 m) (ent3 n)) mat_id /\ mat_eq 3 (mat_mul 3 (ent3 n) (ent3 m)) mat_id /\
    m3_mul (XM3 m) (XM3 n) = m3_identity /\ m3_mul (XM3 n) (XM3 m) = m3_identity.
Proof. exact C38_inverse_ok_3x3_pf. Qed.
Print Assumptions C38_inverse_ok_3x3.
Theorem C38_inverse_err_3x3 : forall m : Matrix3x3 R, mat_det 3 (ent3 m) = 0 -> m3_inverse (XM3 m) = Err.
Proof. exact C38_inverse_err_3x3_pf. Qed.
Print Assumptions C38_inverse_err_3x3.
Theorem C38_ok_iff_invertible_3x3 : forall m : Matrix3x3 R,
  ((exists i, m3_inverse (XM3 m) = Ok i) <-> (exists n : matrix, mat_eq 3 (mat_mul 3 (ent3 m) n) mat_id)) /\
  ((exists i, m3_inverse (XM3 m) = Ok i) <-> mat_det 3 (ent3 m) <> 0).
Proof. exact C38_ok_iff_invertible_3x3_pf. Qed.
Print Assumptions C38_ok_iff_invertible_3x3.
Theorem C38_inverse_ok_4x4 : forall (prof : profile) (m : Matrix4x4 R), mat_det 4 (ent4 m) <> 0 ->
  exists n : Matrix4x4 R, m4_inverse prof (XM4 m) = Ret (Ok (XM4 n)) /\
    mat_eq 4 (mat_mul 4 (ent4 m) (ent4 n)) mat_id /\ mat_eq 4 (mat_mul 4 (ent4 n) (ent4 m)) mat_id /\
    m4_mul (XM4 m) (XM4 n) = m4_identity /\ m4_mul (XM4 n) (XM4 m) = m4_identity.
Proof. exact C38_inverse_ok_4x4_pf. Qed.
Print Assumptions C38_inverse_ok_4x4.
Theorem C38_inverse_err_4x4 : forall (prof : profile) (m : Matrix4x4 R), mat_det 4 (ent4 m) = 0 -> m4_inverse prof (XM4 m) = Ret Err.
Proof. exact C38_inverse_err_4x4_pf. Qed.
Print Assumptions C38_inverse_err_4x4.
Theorem C38_ok_iff_invertible_4x4 : forall (prof : profile) (m : Matrix4x4 R),
  ((exists i, m4_inverse prof (XM4 m) = Ret (Ok i)) <-> (exists n : matrix, mat_eq 4 (mat_mul 4 (ent4 m) n) mat_id)) /\
  ((exists i, m4_inverse prof (XM4 m) = Ret (Ok i)) <-> mat_det 4 (ent4 m) <> 0).
Proof. exact C38_ok_iff_invertible_4x4_pf. Qed.
Print Assumptions C38_ok_iff_invertible_4x4.
Theorem C38_inverse_never_panics_4x4 : forall (A : arith) (prof : profile) (m : Matrix4x4 (num A)), m4_inverse prof m <> Panic.
Proof. exact C38_inverse_never_panics_4x4_pf. Qed.
Print Assumptions C38_inverse_never_panics_4x4.
Example C38_example : mat_det 3 (ent3 (mkM3 1 2 0 0 1 3 1 0 1)) <> 0 /\ mat_det 3 (ent3 (mkM3 1 2 3 4 5 6 7 8 9)) = 0.
Proof. split; cbv -[Rplus Rmult Rminus Ropp IZR]; lra. Qed.
