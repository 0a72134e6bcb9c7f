(** Specification vocabulary: a change of units by a power of two. *)
From Coq Require Import ZArith Reals.
From Flocq Require Import Core.Zaux Core.Raux IEEE754.BinarySingleNaN.
From Verif Require Import Scalar Types Float Arith SpecOrder SpecFloat SpecStruct SpecErr.
Local Open Scope R_scope.
Section Scale.
Context {f : format} {P : platform f}.
Notation N := (num (IEEE f P)).
(* y stands for exactly 2^k times the (finite) number x stands for *)
Definition times2 (k : Z) (x y : N) : Prop := Finite x /\ Finite y /\ real_of y = bpow radix2 k * real_of x.
(* the same for extended numbers: an infinity stays itself *)
Definition times2x (k : Z) (x y : N) : Prop := times2 k x y \/ (Eqs x y /\ ~ Finite x).
(* zero, or of magnitude between 2^-a and 2^a *)
Definition in_range (a : Z) (x : N) : Prop := Finite x /\ (real_of x = 0 \/ bpow radix2 (- a) <= Rabs (real_of x) <= bpow radix2 a).
(* the same quantity in two units that differ by the factor 2^k, both readings in range *)
Definition rescaled (a k : Z) (x y : N) : Prop := in_range a x /\ in_range a y /\ times2 k x y.
Definition Vtimes2 k (v w : Vector2 N) : Prop := forall d, times2 k (vcoord2 v d) (vcoord2 w d).
Definition Vtimes3 k (v w : Vector3 N) : Prop := forall d, times2 k (vcoord3 v d) (vcoord3 w d).
Definition Ptimes2 k (p q : Point2 N) : Prop := forall d, times2 k (coord2 p d) (coord2 q d).
Definition Ptimes3 k (p q : Point3 N) : Prop := forall d, times2 k (coord3 p d) (coord3 q d).
Definition Vrescaled2 a k (v w : Vector2 N) : Prop := forall d, rescaled a k (vcoord2 v d) (vcoord2 w d).
Definition Vrescaled3 a k (v w : Vector3 N) : Prop := forall d, rescaled a k (vcoord3 v d) (vcoord3 w d).
Definition Prescaled2 a k (p q : Point2 N) : Prop := forall d, rescaled a k (coord2 p d) (coord2 q d).
Definition Prescaled3 a k (p q : Point3 N) : Prop := forall d, rescaled a k (coord3 p d) (coord3 q d).
Definition Brescaled2 a k (b c : BoundingBox2 N) : Prop := Prescaled2 a k (bb2_min b) (bb2_min c) /\ Prescaled2 a k (bb2_max b) (bb2_max c).
Definition Brescaled3 a k (b c : BoundingBox3 N) : Prop := Prescaled3 a k (bb3_min b) (bb3_min c) /\ Prescaled3 a k (bb3_max b) (bb3_max c).
(* zeros keep their sign *)
Definition VsameSign2 (v w : Vector2 N) : Prop := forall d, Bsign (vcoord2 v d) = Bsign (vcoord2 w d).
Definition VsameSign3 (v w : Vector3 N) : Prop := forall d, Bsign (vcoord3 v d) = Bsign (vcoord3 w d).
End Scale.
