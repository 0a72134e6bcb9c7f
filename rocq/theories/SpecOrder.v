(** Specification vocabulary for order-based properties: NaN-free values, ordered boxes, membership.
    Written without any function of the model (only the comparison of scalars). *)
From Coq Require Import Bool List.
From Verif Require Import Scalar Types.

Section Spec.
Context {S : Type} {O : ScalarOps S}.

(* x <= y, as a proposition; false if either is NaN *)
Definition Le (x y : S) : Prop := sle x y = true.
Definition Lt (x y : S) : Prop := slt x y = true.
(* x == y, as a proposition; false if either is NaN, true for +0 and -0 *)
Definition Eqs (x y : S) : Prop := seq x y = true.
Definition NoNaN (x : S) : Prop := snan x = false.

(* position of a dimension in declaration order *)
Definition dim2_index (d : Dimension2) : nat := match d with D2X => 0 | D2Y => 1 end.
Definition dim3_index (d : Dimension3) : nat := match d with D3X => 0 | D3Y => 1 | D3Z => 2 end.

(* coordinates by dimension *)
Definition coord2 (p : Point2 S) (d : Dimension2) : S := match d with D2X => p2x p | D2Y => p2y p end.
Definition coord3 (p : Point3 S) (d : Dimension3) : S := match d with D3X => p3x p | D3Y => p3y p | D3Z => p3z p end.
Definition vcoord2 (v : Vector2 S) (d : Dimension2) : S := match d with D2X => v2x v | D2Y => v2y v end.
Definition vcoord3 (v : Vector3 S) (d : Dimension3) : S := match d with D3X => v3x v | D3Y => v3y v | D3Z => v3z v end.

Definition NoNaN2 (p : Point2 S) : Prop := forall d, NoNaN (coord2 p d).
Definition NoNaN3 (p : Point3 S) : Prop := forall d, NoNaN (coord3 p d).
Definition VNoNaN2 (v : Vector2 S) : Prop := forall d, NoNaN (vcoord2 v d).
Definition VNoNaN3 (v : Vector3 S) : Prop := forall d, NoNaN (vcoord3 v d).

(* the coordinate-wise order *)
Definition PLe2 (p q : Point2 S) : Prop := forall d, Le (coord2 p d) (coord2 q d).
Definition PLe3 (p q : Point3 S) : Prop := forall d, Le (coord3 p d) (coord3 q d).
Definition VLe2 (p q : Vector2 S) : Prop := forall d, Le (vcoord2 p d) (vcoord2 q d).
Definition VLe3 (p q : Vector3 S) : Prop := forall d, Le (vcoord3 p d) (vcoord3 q d).
(* coordinate-wise == *)
Definition PEq2 (p q : Point2 S) : Prop := forall d, Eqs (coord2 p d) (coord2 q d).
Definition PEq3 (p q : Point3 S) : Prop := forall d, Eqs (coord3 p d) (coord3 q d).
Definition VEq2 (p q : Vector2 S) : Prop := forall d, Eqs (vcoord2 p d) (vcoord2 q d).
Definition VEq3 (p q : Vector3 S) : Prop := forall d, Eqs (vcoord3 p d) (vcoord3 q d).

(* an ordered box: min <= max in every dimension (hence NaN-free and non-empty) *)
Definition Ordered2 (b : BoundingBox2 S) : Prop := PLe2 (bb2_min b) (bb2_max b).
Definition Ordered3 (b : BoundingBox3 S) : Prop := PLe3 (bb3_min b) (bb3_max b).

(* the set of points of a box *)
Definition In2 (p : Point2 S) (b : BoundingBox2 S) : Prop := PLe2 (bb2_min b) p /\ PLe2 p (bb2_max b).
Definition In3 (p : Point3 S) (b : BoundingBox3 S) : Prop := PLe3 (bb3_min b) p /\ PLe3 p (bb3_max b).

(* set inclusion and equality up to == of the corners *)
Definition Incl2 (a b : BoundingBox2 S) : Prop := forall p, In2 p a -> In2 p b.
Definition Incl3 (a b : BoundingBox3 S) : Prop := forall p, In3 p a -> In3 p b.
Definition BEq2 (a b : BoundingBox2 S) : Prop := PEq2 (bb2_min a) (bb2_min b) /\ PEq2 (bb2_max a) (bb2_max b).
Definition BEq3 (a b : BoundingBox3 S) : Prop := PEq3 (bb3_min a) (bb3_min b) /\ PEq3 (bb3_max a) (bb3_max b).
End Spec.
