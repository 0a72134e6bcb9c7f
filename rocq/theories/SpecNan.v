(** Specification vocabulary for C90: being NaN. *)
From Verif Require Import Scalar Types Float XReal Arith SpecOrder SpecFloat.
Section S.
Context {A : arith}.
Definition NaN (x : num A) : Prop := snan x = true.
(* every coordinate is NaN *)
Definition AllNaN2 (p : Point2 (num A)) : Prop := forall d, NaN (coord2 p d).
Definition AllNaN3 (p : Point3 (num A)) : Prop := forall d, NaN (coord3 p d).
Definition VAllNaN2 (v : Vector2 (num A)) : Prop := forall d, NaN (vcoord2 v d).
Definition VAllNaN3 (v : Vector3 (num A)) : Prop := forall d, NaN (vcoord3 v d).
End S.
