(** Specification vocabulary for C113: a client of the crate.  Finding all pairs of overlapping boxes by sorting them along one
    axis and comparing each box with its successors only as long as these start before it ends. *)
From Coq Require Import List.
From Verif Require Import Scalar Types Vector2 Vector3 Point2 Point3 Ray BoundingBox2 BoundingBox3 SpecOrder.
Import ListNotations.
(* all pairs of elements at different positions, the earlier one first *)
Fixpoint pairs {T : Type} (l : list T) : list (T * T) := match l with [] => [] | x :: r => map (pair x) r ++ pairs r end.
Section S.
Context {S : Type} {O : ScalarOps S}.
Fixpoint scan2 (d : Dimension2) (b : BoundingBox2 S) (l : list (BoundingBox2 S)) : list (BoundingBox2 S * BoundingBox2 S) := match l with [] => [] | c :: r =>
  if sle (coord2 (bb2_min c) d) (coord2 (bb2_max b) d) then (if bb2_overlaps b c then [(b, c)] else []) ++ scan2 d b r else [] end.
Fixpoint scan3 (d : Dimension3) (b : BoundingBox3 S) (l : list (BoundingBox3 S)) : list (BoundingBox3 S * BoundingBox3 S) := match l with [] => [] | c :: r =>
  if sle (coord3 (bb3_min c) d) (coord3 (bb3_max b) d) then (if bb3_overlaps b c then [(b, c)] else []) ++ scan3 d b r else [] end.
Fixpoint sweep2 (d : Dimension2) (l : list (BoundingBox2 S)) := match l with [] => [] | b :: r => scan2 d b r ++ sweep2 d r end.
Fixpoint sweep3 (d : Dimension3) (l : list (BoundingBox3 S)) := match l with [] => [] | b :: r => scan3 d b r ++ sweep3 d r end.
(* insertion sort by the lower face *)
Fixpoint ins2 (d : Dimension2) (b : BoundingBox2 S) (l : list (BoundingBox2 S)) := match l with [] => [b] | c :: r =>
  if sle (coord2 (bb2_min b) d) (coord2 (bb2_min c) d) then b :: l else c :: ins2 d b r end.
Fixpoint ins3 (d : Dimension3) (b : BoundingBox3 S) (l : list (BoundingBox3 S)) := match l with [] => [b] | c :: r =>
  if sle (coord3 (bb3_min b) d) (coord3 (bb3_min c) d) then b :: l else c :: ins3 d b r end.
Definition isort2 (d : Dimension2) (l : list (BoundingBox2 S)) := fold_right (ins2 d) [] l.
Definition isort3 (d : Dimension3) (l : list (BoundingBox3 S)) := fold_right (ins3 d) [] l.
End S.
