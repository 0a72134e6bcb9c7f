(** Specification vocabulary: equality that also accepts NaN on both sides (IEEE == is false on NaN). *)
From Coq Require Import Bool.
From Verif Require Import Scalar Types SpecOrder.
Section Same.
Context {S : Type} {O : ScalarOps S}.
(* x == y, or both are NaN *)
Definition Same (x y : S) : Prop := Eqs x y \/ (snan x = true /\ snan y = true).
Definition PSame2 (p q : Point2 S) : Prop := forall d, Same (coord2 p d) (coord2 q d).
Definition PSame3 (p q : Point3 S) : Prop := forall d, Same (coord3 p d) (coord3 q d).
Definition VSame2 (v w : Vector2 S) : Prop := forall d, Same (vcoord2 v d) (vcoord2 w d).
Definition VSame3 (v w : Vector3 S) : Prop := forall d, Same (vcoord3 v d) (vcoord3 w d).
End Same.
