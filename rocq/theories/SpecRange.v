(** Specification vocabulary for C89: magnitudes bounded by powers of two. *)
From Coq Require Import ZArith Reals List.
From Flocq Require Import Core.Zaux Core.Raux.
From Verif Require Import Scalar Types Float XReal Arith SpecOrder SpecFloat SpecReal SpecErr.
Import ListNotations.
Local Open Scope R_scope.

(* 2^k is below the overflow threshold of the arithmetic (2^128 for f32, 2^1024 for f64; none in exact arithmetic) *)
Definition fits (A : arith) (k : Z) : Prop := match A with IEEE f _ => (k < emax f)%Z | EXACT => True end.
Section A.
Context {A : arith}.
(* a finite scalar of size at most 2^k *)
Definition Mag (k : Z) (x : num A) : Prop := Finite x /\ Rabs (real_of x) <= bpow radix2 k.
Definition PMag2 k (p : Point2 (num A)) : Prop := forall d, Mag k (coord2 p d).
Definition PMag3 k (p : Point3 (num A)) : Prop := forall d, Mag k (coord3 p d).
Definition VMag2 k (v : Vector2 (num A)) : Prop := forall d, Mag k (vcoord2 v d).
Definition VMag3 k (v : Vector3 (num A)) : Prop := forall d, Mag k (vcoord3 v d).
Definition MMag3 k (m : Matrix3x3 (num A)) : Prop := Forall (Mag k) [m3_0 m; m3_1 m; m3_2 m; m3_3 m; m3_4 m; m3_5 m; m3_6 m; m3_7 m; m3_8 m].
Definition MMag4 k (m : Matrix4x4 (num A)) : Prop :=
  Forall (Mag k) [m4_0 m; m4_1 m; m4_2 m; m4_3 m; m4_4 m; m4_5 m; m4_6 m; m4_7 m; m4_8 m; m4_9 m; m4_10 m; m4_11 m; m4_12 m; m4_13 m; m4_14 m; m4_15 m].
(* the safe range of magnitudes of f32 is 2^-62 .. 2^62, of f64 2^-510 .. 2^510; exact arithmetic has no limits *)
Definition safe_exp (f : format) : Z := match f with F32 => 62 | F64 => 510 end.
Definition NotTooBig (x : num A) : Prop := Finite x /\ match A with IEEE f _ => Rabs (real_of x) <= bpow radix2 (safe_exp f) | EXACT => True end.
Definition NotTooSmall (r : R) : Prop := match A with IEEE f _ => bpow radix2 (- safe_exp f) <= Rabs r | EXACT => r <> 0 end.
End A.
