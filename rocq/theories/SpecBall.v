(** Specification vocabulary for C108 and C109: clients of the crate.  The box around a ball, and the search for all points of a
    tree within a distance. *)
From Coq Require Import List.
From Verif Require Import Scalar Types Vector2 Vector3 Point2 Point3 Ray BoundingBox2 BoundingBox3 SpecOrder SpecFloat SpecNear SpecHull.
Import ListNotations.
Section A.
Context {S : Type} {O : ScalarOps S}.
(* new(c - (r, r), c + (r, r)) *)
Definition ball_box2 (c : Point2 S) (r : S) : BoundingBox2 S := bb2_new (p2_sub_v c (v2_new r r)) (p2_add c (v2_new r r)).
Definition ball_box3 (c : Point3 S) (r : S) : BoundingBox3 S := bb3_new (p3_sub_v c (v3_new r r r)) (p3_add c (v3_new r r r)).
(* all points of the tree within r of q; a subtree is skipped if the point of its box nearest to q is not within r, and
   taken as a whole if all corners of its box are within r *)
Fixpoint within2 (prof : profile) (q : Point2 S) (r : S) (t : ptree2 S) : list (Point2 S) := match t with
  | PLeaf2 p => if sle (p2_distance q p) r then [p] else []
  | PNode2 a b => if sle (p2_distance q (clamp2 (pbounds2 t) q)) r
    then if forallb (fun k => sle (p2_distance q k) r) (corners2 prof (pbounds2 t)) then points2 t else within2 prof q r a ++ within2 prof q r b
    else [] end.
Fixpoint within3 (prof : profile) (q : Point3 S) (r : S) (t : ptree3 S) : list (Point3 S) := match t with
  | PLeaf3 p => if sle (p3_distance q p) r then [p] else []
  | PNode3 a b => if sle (p3_distance q (clamp3 (pbounds3 t) q)) r
    then if forallb (fun k => sle (p3_distance q k) r) (corners3 prof (pbounds3 t)) then points3 t else within3 prof q r a ++ within3 prof q r b
    else [] end.
End A.
