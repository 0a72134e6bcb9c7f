(** Specification vocabulary for C80 (look_at in floating point). *)
From Coq Require Import ZArith Reals.
From Verif Require Import Scalar Types Vector3 Point3 Transform3 Float XReal Arith SpecOrder SpecFloat SpecReal SpecErr SpecRot.
Local Open Scope R_scope.

Section A.
Context {A : arith}.
(* the squared length neither overflows nor underflows, and the vector is not zero *)
Definition LenOk (v : Vector3 (num A)) : Prop :=
  Finite (v3_dot v v) /\ min_subnormal A <= unit_roundoff A * real_of (v3_dot v v) /\ 0 < Rnorm3 (RV3 v).
(* acceptable parameters of look_at: the lengths of the view direction and of up are in range; s, the length of the cross product of
   the two normalized (the sine of the angle between them) is at least 1024 u; the eye is not absurdly far away
   (about 2^59 for f32, 2^507 for f64) *)
Definition LookOk (from target : Point3 (num A)) (up : Vector3 (num A)) (s : R) : Prop :=
  let w := p3_sub target from in let c := v3_cross (v3_normalize up) (v3_normalize w) in
  LenOk w /\ LenOk up /\ LenOk c /\ s = Rnorm3 (RV3 c) /\ 1024 * unit_roundoff A <= s /\
  64 * min_subnormal A * (2 + Rsum3 (toV3 (RP3 from))) ^ 2 <= unit_roundoff A.
End A.
(* triple product *)
Definition Rdet3 (a b c : Vector3 R) : R :=
  v3x a * (v3y b * v3z c - v3z b * v3y c) + v3y a * (v3z b * v3x c - v3x b * v3z c) + v3z a * (v3x b * v3y c - v3y b * v3x c).
