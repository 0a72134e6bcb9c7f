(** Specification vocabulary for C91: safe camera parameters. *)
From Coq Require Import ZArith Reals.
From Flocq Require Import Core.Zaux Core.Raux.
From Verif Require Import Scalar Types Vector3 Point3 Float XReal Arith SpecOrder SpecFloat SpecReal SpecErr SpecRot SpecRange.
Local Open Scope R_scope.

(* the vector from one point to another, the cross product, and the sine of the angle between two non-zero vectors *)
Definition Rarrow (p q : Point3 R) : Vector3 R := mkVector3 (p3x q - p3x p) (p3y q - p3y p) (p3z q - p3z p).
Definition Rcross3 (a b : Vector3 R) : Vector3 R :=
  mkVector3 (v3y a * v3z b - v3z a * v3y b) (v3z a * v3x b - v3x a * v3z b) (v3x a * v3y b - v3y a * v3x b).
Definition Rsine (a b : Vector3 R) : R := Rnorm3 (Rcross3 a b) / (Rnorm3 a * Rnorm3 b).
Section A.
Context {A : arith}.
(* coordinates of eye and target: at most 2^57 for f32, 2^505 for f64, no limit in exact arithmetic *)
Definition eye_exp (f : format) : Z := match f with F32 => 57 | F64 => 505 end.
Definition NotFar (x : num A) : Prop := Finite x /\ match A with IEEE f _ => Rabs (real_of x) <= bpow radix2 (eye_exp f) | EXACT => True end.
(* safe parameters of look_at: eye and target not absurdly far away and distinguishable in one coordinate, up neither too long nor too
   short, and the sine of the angle between up and the view direction at least 2048 units roundoff (positive in exact arithmetic) *)
Definition SafeCamera (from target : Point3 (num A)) (up : Vector3 (num A)) : Prop :=
  (forall d, NotFar (coord3 from d)) /\ (forall d, NotFar (coord3 target d)) /\
  (exists d, NotTooSmall (A:=A) (real_of (coord3 target d) - real_of (coord3 from d))) /\
  (forall d, NotTooBig (vcoord3 up d)) /\ (exists d, NotTooSmall (A:=A) (real_of (vcoord3 up d))) /\
  0 < Rsine (RV3 up) (Rarrow (RP3 from) (RP3 target)) /\ 2048 * unit_roundoff A <= Rsine (RV3 up) (Rarrow (RP3 from) (RP3 target)).
End A.
