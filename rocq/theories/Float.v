(** IEEE level: f32 and f64 as instances of [ScalarOps].
    Models the meaning of the num-traits [Float] operations for the two types for which the crate implements
    [Scalar] (src/scalar.rs:33-59); num-traits forwards them to the inherent methods of f32/f64 in std. *)
From Coq Require Import Bool ZArith Reals.
From Flocq Require Import Core.Zaux Core.Raux Core.Defs Core.Generic_fmt IEEE754.BinarySingleNaN.
From Verif Require Import Scalar.

(* src/scalar.rs:33-35: the two implementors of Scalar *)
Inductive format := F32 | F64.
Definition prec (f : format) : Z := match f with F32 => 24 | F64 => 53 end%Z.
Definition emax (f : format) : Z := match f with F32 => 128 | F64 => 1024 end%Z.

Global Instance prec_gt_0 (f : format) : FLX.Prec_gt_0 (prec f).
Proof. destruct f; reflexivity. Qed.
Global Instance prec_lt_emax (f : format) : Prec_lt_emax (prec f) (emax f).
Proof. destruct f; reflexivity. Qed.

(* f32, f64: IEEE-754 binary32/binary64 with a single NaN *)
Definition F (f : format) : Type := binary_float (prec f) (emax f).

(** What Rust leaves unspecified: the accuracy of sin_cos, and which operand min/max return
    when the operands are equal (this is visible only for +0 against -0). *)
Record platform (f : format) := {
  pf_sin_cos : F f -> F f * F f;
  pf_min_first : F f -> F f -> bool;
  pf_max_first : F f -> F f -> bool
}.
Arguments pf_sin_cos {f}. Arguments pf_min_first {f}. Arguments pf_max_first {f}.

Section Ops.
Context {f : format}.

Definition fzero : F f := B754_zero false.
Definition fone : F f := @Bone (prec f) (emax f) (prec_gt_0 f) (prec_lt_emax f).
(* the literals 0.5 and 2.0, src/scalar.rs:37-59 *)
Definition fhalf : F f := @binary_normalize (prec f) (emax f) (prec_gt_0 f) (prec_lt_emax f) mode_NE 1 (-1) false.
Definition ftwo : F f := @binary_normalize (prec f) (emax f) (prec_gt_0 f) (prec_lt_emax f) mode_NE 2 0 false.
Definition finf : F f := B754_infinity false.
Definition fninf : F f := B754_infinity true.
Definition fadd (x y : F f) : F f := @Bplus (prec f) (emax f) (prec_gt_0 f) (prec_lt_emax f) mode_NE x y.
Definition fsub (x y : F f) : F f := @Bminus (prec f) (emax f) (prec_gt_0 f) (prec_lt_emax f) mode_NE x y.
Definition fmul (x y : F f) : F f := @Bmult (prec f) (emax f) (prec_gt_0 f) (prec_lt_emax f) mode_NE x y.
Definition fdiv (x y : F f) : F f := @Bdiv (prec f) (emax f) (prec_gt_0 f) (prec_lt_emax f) mode_NE x y.
Definition fsqrt (x : F f) : F f := @Bsqrt (prec f) (emax f) (prec_gt_0 f) (prec_lt_emax f) mode_NE x.
Definition fneg (x : F f) : F f := Bopp x.
Definition fabs (x : F f) : F f := Babs x.
Definition fnearby (m : mode) (x : F f) : F f := @Bnearbyint (prec f) (emax f) (prec_lt_emax f) m x.
Definition ffloor : F f -> F f := fnearby mode_DN.
Definition fceil : F f -> F f := fnearby mode_UP.
Definition fround : F f -> F f := fnearby mode_NA.      (* ties away from zero *)
Definition ftrunc : F f -> F f := fnearby mode_ZR.
Definition ffract (x : F f) : F f := fsub x (ftrunc x). (* std: self - self.trunc() *)
Definition frecip (x : F f) : F f := fdiv fone x.       (* std: 1.0 / self *)
Definition flt (x y : F f) : bool := Bltb x y.
Definition fle (x y : F f) : bool := Bleb x y.
Definition feq (x y : F f) : bool := Beqb x y.
Definition fnan (x : F f) : bool := is_nan x.

(* f32::min/max, f64::min/max: if one argument is NaN the other is returned *)
Definition fmin (P : platform f) (x y : F f) : F f :=
  if fnan x then y else if fnan y then x
  else if flt x y then x else if flt y x then y
  else if pf_min_first P x y then x else y.
Definition fmax (P : platform f) (x y : F f) : F f :=
  if fnan x then y else if fnan y then x
  else if flt x y then y else if flt y x then x
  else if pf_max_first P x y then x else y.
End Ops.

Definition float_ops (f : format) (P : platform f) : ScalarOps (F f) := {|
  szero := fzero; sone := fone; shalf := fhalf; stwo := ftwo; sinf := finf; sninf := fninf;
  sadd := fadd; ssub := fsub; smul := fmul; sdiv := fdiv; sneg := fneg; sabs := fabs; ssqrt := fsqrt;
  sfloor := ffloor; sceil := fceil; sround := fround; strunc := ftrunc; sfract := ffract; srecip := frecip;
  sfmin := fmin P; sfmax := fmax P; ssin_cos := pf_sin_cos P;
  slt := flt; sle := fle; seq := feq; snan := fnan
|}.

(** A concrete platform for examples and refutations: min/max prefer the first of two equal operands,
    and sin_cos is a dummy (no example that uses it depends on its values). *)
Definition platform0 (f : format) : platform f :=
  {| pf_sin_cos := fun x => (x, fone); pf_min_first := fun _ _ => true; pf_max_first := fun _ _ => true |}.

(** Float literals for examples: m * 2^e, correctly rounded. *)
Definition flit (f : format) (m e : Z) : F f :=
  @binary_normalize (prec f) (emax f) (prec_gt_0 f) (prec_lt_emax f) mode_NE m e false.
