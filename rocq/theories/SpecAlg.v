(** Specification vocabulary for C84: what is asked of the platform's sine and cosine, and exact rotation matrices. *)
From Coq Require Import Reals.
From Verif Require Import Scalar Types Arith Float SpecOrder SpecFloat.
Local Open Scope R_scope.

Section Alg.
Context {A : arith}.
(* the platform's sin_cos is odd and even at this pair of angles: sin y = - sin x and cos y = cos x, all finite *)
Definition SinCosOpposite (x y : num A) : Prop :=
  let (s, c) := ssin_cos x in let (s', c') := ssin_cos y in Finite s /\ Finite c /\ Eqs s' (sneg s) /\ Eqs c' c.
(* sin_cos of this angle is (0, 1) *)
Definition SinCosNone (x : num A) : Prop := let (s, c) := ssin_cos x in Eqs s szero /\ Eqs c sone.
End Alg.

(* the exact matrices of rotations by a in the plane, and about the coordinate axes *)
Definition Mrot (a : R) : Matrix3x3 R := mkM3 (cos a) (- sin a) 0 (sin a) (cos a) 0 0 0 1.
Definition Mrot_x (a : R) : Matrix4x4 R := mkM4 1 0 0 0 0 (cos a) (- sin a) 0 0 (sin a) (cos a) 0 0 0 0 1.
Definition Mrot_y (a : R) : Matrix4x4 R := mkM4 (cos a) 0 (sin a) 0 0 1 0 0 (- sin a) 0 (cos a) 0 0 0 0 1.
Definition Mrot_z (a : R) : Matrix4x4 R := mkM4 (cos a) (- sin a) 0 0 (sin a) (cos a) 0 0 0 0 1 0 0 0 0 1.
