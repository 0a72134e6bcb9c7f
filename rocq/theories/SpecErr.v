(** Specification vocabulary for accuracy properties: the real number a scalar stands for, and the constants
    of the two formats. *)
From Coq Require Import ZArith Reals.
From Flocq Require Import Core.Zaux Core.Raux IEEE754.BinarySingleNaN.
From Verif Require Import Scalar Types Float XReal Arith SpecOrder SpecReal.
Local Open Scope R_scope.

(* the real number a finite scalar stands for (0 for infinities and NaN, where no property uses it) *)
Definition real_of {A : arith} : num A -> R :=
  match A with
  | IEEE f _ => fun x => B2R x
  | EXACT => fun x => match x with Fin r => r | _ => 0 end
  end.
(* half a unit in the last place of 1: 2^-24 for f32, 2^-53 for f64; 0 in exact arithmetic *)
Definition unit_roundoff (A : arith) : R :=
  match A with IEEE f _ => bpow radix2 (- prec f) | EXACT => 0 end.
(* the smallest positive number: 2^-149 for f32, 2^-1074 for f64; 0 in exact arithmetic, where it stands for "no underflow" *)
Definition min_subnormal (A : arith) : R :=
  match A with IEEE f _ => bpow radix2 (3 - emax f - prec f) | EXACT => 0 end.

(** ** The real vectors, points and matrices behind those of scalars *)
Section Real.
Context {A : arith}.
Definition RV2 (v : Vector2 (num A)) : Vector2 R := mkVector2 (real_of (v2x v)) (real_of (v2y v)).
Definition RV3 (v : Vector3 (num A)) : Vector3 R := mkVector3 (real_of (v3x v)) (real_of (v3y v)) (real_of (v3z v)).
Definition RP2 (p : Point2 (num A)) : Point2 R := mkPoint2 (real_of (p2x p)) (real_of (p2y p)).
Definition RP3 (p : Point3 (num A)) : Point3 R := mkPoint3 (real_of (p3x p)) (real_of (p3y p)) (real_of (p3z p)).
Definition RM3 (m : Matrix3x3 (num A)) : Matrix3x3 R :=
  mkM3 (real_of (m3_0 m)) (real_of (m3_1 m)) (real_of (m3_2 m)) (real_of (m3_3 m)) (real_of (m3_4 m)) (real_of (m3_5 m))
       (real_of (m3_6 m)) (real_of (m3_7 m)) (real_of (m3_8 m)).
Definition RM4 (m : Matrix4x4 (num A)) : Matrix4x4 R :=
  mkM4 (real_of (m4_0 m)) (real_of (m4_1 m)) (real_of (m4_2 m)) (real_of (m4_3 m)) (real_of (m4_4 m)) (real_of (m4_5 m))
       (real_of (m4_6 m)) (real_of (m4_7 m)) (real_of (m4_8 m)) (real_of (m4_9 m)) (real_of (m4_10 m)) (real_of (m4_11 m))
       (real_of (m4_12 m)) (real_of (m4_13 m)) (real_of (m4_14 m)) (real_of (m4_15 m)).
(* last row 0 .. 0 1 *)
Definition Affine3x3 (m : Matrix3x3 (num A)) : Prop := Eqs (m3_6 m) szero /\ Eqs (m3_7 m) szero /\ Eqs (m3_8 m) sone.
Definition Affine4x4 (m : Matrix4x4 (num A)) : Prop :=
  Eqs (m4_12 m) szero /\ Eqs (m4_13 m) szero /\ Eqs (m4_14 m) szero /\ Eqs (m4_15 m) sone.
End Real.
(* component-wise absolute value *)
Definition absV2 (v : Vector2 R) : Vector2 R := mkVector2 (Rabs (v2x v)) (Rabs (v2y v)).
Definition absV3 (v : Vector3 R) : Vector3 R := mkVector3 (Rabs (v3x v)) (Rabs (v3y v)) (Rabs (v3z v)).
Definition absP2 (p : Point2 R) : Point2 R := mkPoint2 (Rabs (p2x p)) (Rabs (p2y p)).
Definition absP3 (p : Point3 R) : Point3 R := mkPoint3 (Rabs (p3x p)) (Rabs (p3y p)) (Rabs (p3z p)).
Definition mat_abs (m : matrix) : matrix := fun r c => Rabs (m r c).
(* permanent: the determinant's expansion with every sign + *)
Fixpoint mat_perm (n : nat) (m : matrix) : R :=
  match n with
  | O => 1
  | S k => sum_n n (fun c => m 0%nat c * mat_perm k (mat_minor m c))
  end.
