(** Specification vocabulary: scalars on a dyadic grid (integers, halves, quarters, ...). *)
From Coq Require Import List ZArith Reals.
From Flocq Require Import Core.Zaux Core.Raux.
From Verif Require Import Scalar Types Arith SpecOrder SpecFloat SpecStruct SpecErr.
Local Open Scope R_scope.
(* r is an integer multiple n * 2^e of the grid spacing 2^e, with |n| <= B *)
Definition grid_real (e B : Z) (r : R) : Prop := exists n, r = IZR n * bpow radix2 e /\ (Z.abs n <= B)%Z.
Section Grid.
Context {A : arith}.
Definition on_grid (e B : Z) (x : num A) : Prop := Finite x /\ grid_real e B (real_of x).
Definition Vgrid2 e B (v : Vector2 (num A)) : Prop := forall d, on_grid e B (vcoord2 v d).
Definition Vgrid3 e B (v : Vector3 (num A)) : Prop := forall d, on_grid e B (vcoord3 v d).
Definition Pgrid2 e B (p : Point2 (num A)) : Prop := forall d, on_grid e B (coord2 p d).
Definition Pgrid3 e B (p : Point3 (num A)) : Prop := forall d, on_grid e B (coord3 p d).
Definition Bgrid2 e B (b : BoundingBox2 (num A)) : Prop := Pgrid2 e B (bb2_min b) /\ Pgrid2 e B (bb2_max b).
Definition Bgrid3 e B (b : BoundingBox3 (num A)) : Prop := Pgrid3 e B (bb3_min b) /\ Pgrid3 e B (bb3_max b).
(* every entry *)
Definition Mgrid3 e B (m : Matrix3x3 (num A)) : Prop := Forall (on_grid e B) (m3_comps m).
Definition Mgrid4 e B (m : Matrix4x4 (num A)) : Prop := Forall (on_grid e B) (m4_comps m).
(* the linear part of an affine matrix on the grid 2^g, the translation part on the grid 2^e *)
Definition Agrid3 g M e T (m : Matrix3x3 (num A)) : Prop :=
  Forall (on_grid g M) (m3_0 m :: m3_1 m :: m3_3 m :: m3_4 m :: nil) /\ Forall (on_grid e T) (m3_2 m :: m3_5 m :: nil) /\ Affine3x3 m.
Definition Agrid4 g M e T (m : Matrix4x4 (num A)) : Prop :=
  Forall (on_grid g M) (m4_0 m :: m4_1 m :: m4_2 m :: m4_4 m :: m4_5 m :: m4_6 m :: m4_8 m :: m4_9 m :: m4_10 m :: nil) /\
  Forall (on_grid e T) (m4_3 m :: m4_7 m :: m4_11 m :: nil) /\ Affine4x4 m.
End Grid.
