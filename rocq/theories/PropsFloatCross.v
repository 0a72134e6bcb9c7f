(** Theorems: C99 (how perpendicular a computed cross product is).
    [A] ranges over f32 and f64 on every platform, and exact reals extended with infinities and NaN (where the bounds are 0). *)
From Coq Require Import Bool NArith ZArith Reals List Lia Lra.
From Flocq Require Import Core.Defs IEEE754.BinarySingleNaN.
From Verif Require Import Scalar Types Vector2 Vector3 Point2 Point3 Float XReal Arith SpecOrder SpecFloat SpecErr SpecReal SpecCam ExVals FloatCross.
Local Open Scope R_scope.
(** * C99: the length of the error of a cross product, relative to the product of the lengths *)
Theorem C99_cross_error : forall (A : arith) (a b : Vector3 (num A)), VFinite3 (v3_cross a b) ->
  let c := RV3 (v3_cross a b) in let x := Rcross3 (RV3 a) (RV3 b) in
  Rnorm3 (mkVector3 (v3x c - v3x x) (v3y c - v3y x) (v3z c - v3z x)) <= 4 * unit_roundoff A * (Rnorm3 (RV3 a) * Rnorm3 (RV3 b)) + 4 * min_subnormal A.
Proof. exact C99_cross_error_pf. Qed.
Print Assumptions C99_cross_error.
(** * the vector returned is perpendicular to both arguments, up to rounding *)
Theorem C99_perpendicular : forall (A : arith) (a b w : Vector3 (num A)), VFinite3 (v3_cross a b) -> w = a \/ w = b ->
  Rabs (Rdot3 (RV3 w) (RV3 (v3_cross a b))) <= 4 * unit_roundoff A * (Rnorm3 (RV3 w) * (Rnorm3 (RV3 a) * Rnorm3 (RV3 b))) + 4 * min_subnormal A * Rnorm3 (RV3 w).
Proof. exact C99_perpendicular_pf. Qed.
Print Assumptions C99_perpendicular.
(** * and so is the dot product computed with it *)
Theorem C99_computed_dot : forall (A : arith) (a b w : Vector3 (num A)), VFinite3 (v3_cross a b) -> w = a \/ w = b -> Finite (v3_dot w (v3_cross a b)) ->
  Rabs (real_of (v3_dot w (v3_cross a b))) <= 10 * unit_roundoff A * (Rnorm3 (RV3 w) * (Rnorm3 (RV3 a) * Rnorm3 (RV3 b))) + min_subnormal A * (5 * Rnorm3 (RV3 w) + 3).
Proof. exact C99_computed_dot_pf. Qed.
Print Assumptions C99_computed_dot.
(** * the cross product of a vector with itself is exactly zero *)
Theorem C99_self_zero : forall (A : arith) (v : Vector3 (num A)) (d : Dimension3), Finite (vcoord3 (v3_cross v v) d) -> Eqs (vcoord3 (v3_cross v v) d) szero.
Proof. exact C99_self_zero_pf. Qed.
Print Assumptions C99_self_zero.
(* FINDING: the cross product of two vectors that are not parallel can be exactly zero: f32, e = 2^-12, (1, 1+e, 0) and (1+e, 1+2e, 0) *)
Definition pa : Vector3 (num A32) := mkVector3 (d32 4096 (-12)) (d32 4097 (-12)) (d32 0 0).
Definition pb : Vector3 (num A32) := mkVector3 (d32 4097 (-12)) (d32 4098 (-12)) (d32 0 0).
Example C99_zero_of_nonparallel : seq (v3x (v3_cross pa pb)) szero && seq (v3y (v3_cross pa pb)) szero && seq (v3z (v3_cross pa pb)) szero = true /\
  v3z (Rcross3 (RV3 pa) (RV3 pb)) <> 0.
Proof.
  split; [vm_compute; reflexivity|]. assert (V1 : real_of (d32 4096 (-12) : num A32) = 1) by (cbn -[Rinv IZR]; unfold Defs.F2R; cbn; lra).
  assert (V2 : real_of (d32 4097 (-12) : num A32) = 4097 / 4096) by (cbn -[Rinv IZR]; unfold Defs.F2R; cbn; lra). assert (V3 : real_of (d32 4098 (-12) : num A32) = 4098 / 4096) by (cbn -[Rinv IZR]; unfold Defs.F2R; cbn; lra).
  unfold Rcross3, RV3, pa, pb. cbn [v3x v3y v3z]. rewrite V1, V2, V3. lra.
Qed.
(* some slack is needed: the computed dot product of a vector with its cross product need not be zero *)
Example C99_not_exactly_perpendicular : let a := mkVector3 (d64 1 0) (d64 7 0) (d64 3 (-1)) : Vector3 (num A64) in let b := mkVector3 (sdiv sone (d64 3 0)) (sdiv sone (d64 5 0)) (sdiv sone (d64 11 0)) in
  Finite (v3_dot a (v3_cross a b)) /\ ~ Eqs (v3_dot a (v3_cross a b)) szero.
Proof. split; [vm_compute; reflexivity | vm_compute; discriminate]. Qed.
