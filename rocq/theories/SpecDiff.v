(** Specification vocabulary for C97: numbers and points that are close to each other. *)
From Coq Require Import Reals.
From Verif Require Import Scalar Types Arith SpecOrder SpecErr.
Local Open Scope R_scope.
(* same sign, and neither more than twice the other *)
Definition Nearby {A : arith} (x y : num A) : Prop :=
  real_of y / 2 <= real_of x <= 2 * real_of y \/ 2 * real_of y <= real_of x <= real_of y / 2.
Definition PNearby2 {A : arith} (p q : Point2 (num A)) : Prop := forall d, Nearby (coord2 p d) (coord2 q d).
Definition PNearby3 {A : arith} (p q : Point3 (num A)) : Prop := forall d, Nearby (coord3 p d) (coord3 q d).
