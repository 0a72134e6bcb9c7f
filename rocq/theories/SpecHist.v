(** Specification vocabulary for histories of unions and for optional boxes. *)
From Coq Require Import Bool List.
From Verif Require Import Scalar Types Point2 Point3 BoundingBox2 BoundingBox3 SpecOrder.
Section Spec.
Context {S : Type} {O : ScalarOps S}.
(* one step of a history: something is added to the box *)
Inductive item2 : Type := AddPoint2 (p : Point2 S) | AddBox2 (b : BoundingBox2 S).
Inductive item3 : Type := AddPoint3 (p : Point3 S) | AddBox3 (b : BoundingBox3 S).
(* the API call of each step: b.union(p) or b.union(&a) *)
Definition grow2 (b : BoundingBox2 S) (i : item2) : BoundingBox2 S := match i with AddPoint2 p => bb2_union_point b p | AddBox2 a => bb2_union b a end.
Definition grow3 (b : BoundingBox3 S) (i : item3) : BoundingBox3 S := match i with AddPoint3 p => bb3_union_point b p | AddBox3 a => bb3_union b a end.
(* NaN-free points, ordered boxes *)
Definition item_ok2 (i : item2) : Prop := match i with AddPoint2 p => NoNaN2 p | AddBox2 a => Ordered2 a end.
Definition item_ok3 (i : item3) : Prop := match i with AddPoint3 p => NoNaN3 p | AddBox3 a => Ordered3 a end.
(* the box contains the point, or all points of the box, that was added *)
Definition covers2 (b : BoundingBox2 S) (i : item2) : Prop := match i with AddPoint2 p => In2 p b | AddBox2 a => Incl2 a b end.
Definition covers3 (b : BoundingBox3 S) (i : item3) : Prop := match i with AddPoint3 p => In3 p b | AddBox3 a => Incl3 a b end.
(* equality of optional boxes up to == of the corners *)
Definition OEq2 (x y : option (BoundingBox2 S)) : Prop := match x, y with Some a, Some b => BEq2 a b | None, None => True | _, _ => False end.
Definition OEq3 (x y : option (BoundingBox3 S)) : Prop := match x, y with Some a, Some b => BEq3 a b | None, None => True | _, _ => False end.
End Spec.
Arguments item2 S : clear implicits.
Arguments item3 S : clear implicits.
