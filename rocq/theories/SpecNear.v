(** Specification vocabulary for C103 and C104: clients of the crate.  Clamping a point to a box with min and max, and the usual
    nearest-neighbour search in a tree of points whose inner nodes are bounded by the union of their children. *)
From Coq Require Import List.
From Verif Require Import Scalar Types Vector2 Vector3 Point2 Point3 Ray BoundingBox2 BoundingBox3 SpecOrder SpecFloat.
Import ListNotations.
Section A.
Context {S : Type} {O : ScalarOps S}.
(* max(b.min, min(p, b.max)) *)
Definition clamp2 (b : BoundingBox2 S) (p : Point2 S) : Point2 S := p2_max (bb2_min b) (p2_min p (bb2_max b)).
Definition clamp3 (b : BoundingBox3 S) (p : Point3 S) : Point3 S := p3_max (bb3_min b) (p3_min p (bb3_max b)).
Inductive ptree2 := PLeaf2 (p : Point2 S) | PNode2 (l r : ptree2).
Inductive ptree3 := PLeaf3 (p : Point3 S) | PNode3 (l r : ptree3).
Fixpoint points2 (t : ptree2) : list (Point2 S) := match t with PLeaf2 p => [p] | PNode2 l r => points2 l ++ points2 r end.
Fixpoint points3 (t : ptree3) : list (Point3 S) := match t with PLeaf3 p => [p] | PNode3 l r => points3 l ++ points3 r end.
Fixpoint pbounds2 (t : ptree2) : BoundingBox2 S := match t with PLeaf2 p => bb2_new p p | PNode2 l r => bb2_union (pbounds2 l) (pbounds2 r) end.
Fixpoint pbounds3 (t : ptree3) : BoundingBox3 S := match t with PLeaf3 p => bb3_new p p | PNode3 l r => bb3_union (pbounds3 l) (pbounds3 r) end.
(* the point nearest to q of [best] and all points of the tree, skipping every subtree whose box is not closer than [best] *)
Fixpoint nn2 (q : Point2 S) (t : ptree2) (best : Point2 S) : Point2 S := match t with
  | PLeaf2 p => p2_closest q p best
  | PNode2 l r => if p2_is_closer_to q (clamp2 (pbounds2 t) q) best then nn2 q r (nn2 q l best) else best end.
Fixpoint nn3 (q : Point3 S) (t : ptree3) (best : Point3 S) : Point3 S := match t with
  | PLeaf3 p => p3_closest q p best
  | PNode3 l r => if p3_is_closer_to q (clamp3 (pbounds3 t) q) best then nn3 q r (nn3 q l best) else best end.
End A.
Arguments ptree2 : clear implicits.
Arguments ptree3 : clear implicits.
