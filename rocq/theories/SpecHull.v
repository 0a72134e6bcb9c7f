(** Specification vocabulary for C105 and C106: clients of the crate.  The corner of a box that is farthest in a direction, and the
    bounding box of the transformed corners. *)
From Coq Require Import NArith List.
From Verif Require Import Scalar Types Vector2 Vector3 Point2 Point3 Ray BoundingBox2 BoundingBox3 SpecOrder SpecFloat.
Import ListNotations.
Section A.
Context {S : Type} {O : ScalarOps S}.
(* the index of the corner that takes the maximum on the axes along which v is not negative *)
Definition support2 (v : Vector2 S) : N := ((if sle szero (v2x v) then 1 else 0) + (if sle szero (v2y v) then 2 else 0))%N.
Definition support3 (v : Vector3 S) : N := ((if sle szero (v3x v) then 1 else 0) + (if sle szero (v3y v) then 2 else 0) + (if sle szero (v3z v) then 4 else 0))%N.
(* corner(0), corner(1), ... *)
Definition corners2 (prof : profile) (b : BoundingBox2 S) : list (Point2 S) := flat_map (fun i => match bb2_corner prof b i with Ret c => [c] | _ => [] end) [0; 1; 2; 3]%N.
Definition corners3 (prof : profile) (b : BoundingBox3 S) : list (Point3 S) := flat_map (fun i => match bb3_corner prof b i with Ret c => [c] | _ => [] end) [0; 1; 2; 3; 4; 5; 6; 7]%N.
(* the box grown from empty() by the points of a list *)
Definition hull2 (l : list (Point2 S)) : BoundingBox2 S := fold_left bb2_union_point l bb2_empty.
Definition hull3 (l : list (Point3 S)) : BoundingBox3 S := fold_left bb3_union_point l bb3_empty.
End A.
