(** Exact level: real numbers extended with infinities and NaN, IEEE conventions for the special values,
    exact arithmetic otherwise.  One zero (division by it behaves like division by +0). *)
From Coq Require Import Bool ZArith Reals.
From Flocq Require Import Core.Zaux Core.Raux Core.Generic_fmt Core.Round_NE.
From Verif Require Import Scalar.

Inductive xreal := Fin (r : R) | PInf | NInf | XNaN.

Definition xneg (x : xreal) : xreal :=
  match x with Fin a => Fin (- a) | PInf => NInf | NInf => PInf | XNaN => XNaN end.
Definition xabs (x : xreal) : xreal :=
  match x with Fin a => Fin (Rabs a) | PInf | NInf => PInf | XNaN => XNaN end.
Definition xadd (x y : xreal) : xreal :=
  match x, y with
  | XNaN, _ | _, XNaN => XNaN
  | Fin a, Fin b => Fin (a + b)
  | PInf, NInf | NInf, PInf => XNaN
  | PInf, _ | _, PInf => PInf
  | NInf, _ | _, NInf => NInf
  end.
Definition xsub (x y : xreal) : xreal := xadd x (xneg y).
(* the signed infinity with the sign of [a]; NaN for 0: value of inf * a and of a / 0 *)
Definition xsigned_inf (a : R) : xreal :=
  if Rlt_bool 0 a then PInf else if Rlt_bool a 0 then NInf else XNaN.
Definition xmul (x y : xreal) : xreal :=
  match x, y with
  | XNaN, _ | _, XNaN => XNaN
  | Fin a, Fin b => Fin (a * b)
  | Fin a, PInf | PInf, Fin a => xsigned_inf a
  | Fin a, NInf | NInf, Fin a => xneg (xsigned_inf a)
  | PInf, PInf | NInf, NInf => PInf
  | PInf, NInf | NInf, PInf => NInf
  end.
Definition xdiv (x y : xreal) : xreal :=
  match x, y with
  | XNaN, _ | _, XNaN => XNaN
  | Fin a, Fin b => if Req_bool b 0 then xsigned_inf a else Fin (a / b)
  | Fin _, (PInf | NInf) => Fin 0
  | PInf, Fin b => if Rlt_bool b 0 then NInf else PInf
  | NInf, Fin b => if Rlt_bool b 0 then PInf else NInf
  | (PInf | NInf), (PInf | NInf) => XNaN
  end.
Definition xsqrt (x : xreal) : xreal :=
  match x with
  | Fin a => if Rlt_bool a 0 then XNaN else Fin (sqrt a)
  | PInf => PInf
  | NInf | XNaN => XNaN
  end.
Definition xint (rnd : R -> Z) (x : xreal) : xreal :=
  match x with Fin a => Fin (IZR (rnd a)) | _ => x end.
Definition xtrunc : xreal -> xreal := xint Ztrunc.
Definition xnan (x : xreal) : bool := match x with XNaN => true | _ => false end.
Definition xlt (x y : xreal) : bool :=
  match x, y with
  | XNaN, _ | _, XNaN => false
  | Fin a, Fin b => Rlt_bool a b
  | NInf, NInf | PInf, PInf | PInf, _ | _, NInf => false
  | NInf, _ | _, PInf => true
  end.
Definition xle (x y : xreal) : bool :=
  match x, y with
  | XNaN, _ | _, XNaN => false
  | Fin a, Fin b => Rle_bool a b
  | NInf, _ | _, PInf => true
  | PInf, _ | _, NInf => false
  end.
Definition xeq (x y : xreal) : bool := xle x y && xle y x.
Definition xmin (x y : xreal) : xreal := if xnan x then y else if xnan y then x else if xle x y then x else y.
Definition xmax (x y : xreal) : xreal := if xnan x then y else if xnan y then x else if xle x y then y else x.
Definition xsin_cos (x : xreal) : xreal * xreal :=
  match x with Fin a => (Fin (sin a), Fin (cos a)) | _ => (XNaN, XNaN) end.

Global Instance xreal_ops : ScalarOps xreal := {|
  szero := Fin 0; sone := Fin 1; shalf := Fin (1 / 2); stwo := Fin 2; sinf := PInf; sninf := NInf;
  sadd := xadd; ssub := xsub; smul := xmul; sdiv := xdiv; sneg := xneg; sabs := xabs; ssqrt := xsqrt;
  sfloor := xint Zfloor; sceil := xint Zceil; sround := xint (Znearest (Zle_bool 0)); strunc := xtrunc;
  sfract := fun x => xsub x (xtrunc x); srecip := fun x => xdiv (Fin 1) x;
  sfmin := xmin; sfmax := xmax; ssin_cos := xsin_cos;
  slt := xlt; sle := xle; seq := xeq; snan := xnan
|}.
