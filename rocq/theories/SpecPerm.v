(** Specification vocabulary for C88: matrices that only permute and mirror the axes and translate; cameras looking along an axis. *)
From Coq Require Import Bool Reals.
From Verif Require Import Scalar Types Float XReal Arith SpecOrder SpecFloat SpecReal.

Section P.
Context {S : Type} {O : ScalarOps S}.
Definition signed (n : bool) (x : S) : S := if n then sneg x else x.
(* coefficient of source axis j in target axis i, and the translation along i *)
Definition elin2 (m : Matrix3x3 S) (i j : Dimension2) : S :=
  match i, j with D2X, D2X => m3_0 m | D2X, D2Y => m3_1 m | D2Y, D2X => m3_3 m | D2Y, D2Y => m3_4 m end.
Definition etr2 (m : Matrix3x3 S) (i : Dimension2) : S := match i with D2X => m3_2 m | D2Y => m3_5 m end.
Definition elin3 (m : Matrix4x4 S) (i j : Dimension3) : S :=
  match i, j with
  | D3X, D3X => m4_0 m | D3X, D3Y => m4_1 m | D3X, D3Z => m4_2 m
  | D3Y, D3X => m4_4 m | D3Y, D3Y => m4_5 m | D3Y, D3Z => m4_6 m
  | D3Z, D3X => m4_8 m | D3Z, D3Y => m4_9 m | D3Z, D3Z => m4_10 m
  end.
Definition etr3 (m : Matrix4x4 S) (i : Dimension3) : S := match i with D3X => m4_3 m | D3Y => m4_7 m | D3Z => m4_11 m end.
(* target axis i is source axis s i, reversed if n i; any translation; last row 0 .. 0 1 *)
Definition SignedPerm2 (m : Matrix3x3 S) (s : Dimension2 -> Dimension2) (n : Dimension2 -> bool) : Prop :=
  (forall i j, s i = s j -> i = j) /\
  (forall i, Eqs (elin2 m i (s i)) (signed (n i) sone)) /\ (forall i j, j <> s i -> Eqs (elin2 m i j) szero) /\
  Eqs (m3_6 m) szero /\ Eqs (m3_7 m) szero /\ Eqs (m3_8 m) sone.
Definition SignedPerm3 (m : Matrix4x4 S) (s : Dimension3 -> Dimension3) (n : Dimension3 -> bool) : Prop :=
  (forall i j, s i = s j -> i = j) /\
  (forall i, Eqs (elin3 m i (s i)) (signed (n i) sone)) /\ (forall i j, j <> s i -> Eqs (elin3 m i j) szero) /\
  Eqs (m4_12 m) szero /\ Eqs (m4_13 m) szero /\ Eqs (m4_14 m) szero /\ Eqs (m4_15 m) sone.
End P.

(* a signed axis: (d, false) is axis d, (d, true) its negation *)
Definition saxis : Type := Dimension3 * bool.
(* the component of a vector along a signed axis *)
Definition along {S : Type} {O : ScalarOps S} (v : Vector3 S) (a : saxis) : S := signed (snd a) (vcoord3 v (fst a)).
(* the cross product of two signed axes, of different dimensions *)
Definition saxis_cross (a b : saxis) : saxis :=
  let n := xorb (snd a) (snd b) in
  match fst a, fst b with
  | D3X, D3Y => (D3Z, n) | D3Y, D3Z => (D3X, n) | D3Z, D3X => (D3Y, n)
  | D3Y, D3X => (D3Z, negb n) | D3Z, D3Y => (D3X, negb n) | D3X, D3Z => (D3Y, negb n)
  | d, _ => (d, n)
  end.
(* it is the cross product of the unit vectors *)
Definition saxis_vec (a : saxis) : Vector3 R :=
  let r := (if snd a then -1 else 1)%R in
  match fst a with D3X => mkVector3 r 0%R 0%R | D3Y => mkVector3 0%R r 0%R | D3Z => mkVector3 0%R 0%R r end.
