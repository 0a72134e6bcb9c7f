(** Specification vocabulary for C107: a client of the crate.  A box is divided at a point m inside it (usually its center) into
    the sub-boxes BoundingBox::new(b.corner(i), m), and recursively, as in a quadtree or an octree. *)
From Coq Require Import NArith List.
From Verif Require Import Scalar Types Point2 Point3 Ray BoundingBox2 BoundingBox3 SpecOrder SpecFloat SpecHull.
Import ListNotations.
Section A.
Context {S : Type} {O : ScalarOps S}.
Definition children2 (prof : profile) (b : BoundingBox2 S) (m : Point2 S) : list (BoundingBox2 S) := map (fun c => bb2_new c m) (corners2 prof b).
Definition children3 (prof : profile) (b : BoundingBox3 S) (m : Point3 S) : list (BoundingBox3 S) := map (fun c => bb3_new c m) (corners3 prof b).
(* the index of the sub-box to look into for p *)
Definition octant2 (m p : Point2 S) : N := ((if sle (p2x m) (p2x p) then 1 else 0) + (if sle (p2y m) (p2y p) then 2 else 0))%N.
Definition octant3 (m p : Point3 S) : N := ((if sle (p3x m) (p3x p) then 1 else 0) + (if sle (p3y m) (p3y p) then 2 else 0) + (if sle (p3z m) (p3z p) then 4 else 0))%N.
(* n levels down, dividing at the center *)
Fixpoint locate2 (prof : profile) (n : nat) (b : BoundingBox2 S) (p : Point2 S) : BoundingBox2 S := match n with
  | 0%nat => b
  | Datatypes.S n => match bb2_corner prof b (octant2 (bb2_center b) p) with Ret c => locate2 prof n (bb2_new c (bb2_center b)) p | _ => b end end.
Fixpoint locate3 (prof : profile) (n : nat) (b : BoundingBox3 S) (p : Point3 S) : BoundingBox3 S := match n with
  | 0%nat => b
  | Datatypes.S n => match bb3_corner prof b (octant3 (bb3_center b) p) with Ret c => locate3 prof n (bb3_new c (bb3_center b)) p | _ => b end end.
End A.
