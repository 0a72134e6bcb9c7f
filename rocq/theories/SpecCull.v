(** Specification vocabulary for C112: a client of the crate that tests a box against half-spaces { p : dot(n, p) <= k }. *)
From Coq Require Import List NArith.
From Verif Require Import Scalar Types Vector2 Vector3 Point2 Point3 Ray BoundingBox2 BoundingBox3 SpecFloat SpecNear SpecHull.
Import ListNotations.
Section S.
Context {S : Type} {O : ScalarOps S}.
(* the point is in all the half-spaces (a convex region, for instance the view frustum of a camera) *)
Definition in_region2 (h : list (Vector2 S * S)) (p : Point2 S) : bool := forallb (fun nk => sle (v2_dot (fst nk) (v2_from p)) (snd nk)) h.
Definition in_region3 (h : list (Vector3 S * S)) (p : Point3 S) : bool := forallb (fun nk => sle (v3_dot (fst nk) (v3_from p)) (snd nk)) h.
(* the box is thrown away: for one half-space, the corner picked by the signs of -n is outside *)
Definition culled2 (prof : profile) (h : list (Vector2 S * S)) (b : BoundingBox2 S) : bool :=
  existsb (fun nk => match bb2_corner prof b (support2 (v2_neg (fst nk))) with Ret c => slt (snd nk) (v2_dot (fst nk) (v2_from c)) | Panic => false end) h.
Definition culled3 (prof : profile) (h : list (Vector3 S * S)) (b : BoundingBox3 S) : bool :=
  existsb (fun nk => match bb3_corner prof b (support3 (v3_neg (fst nk))) with Ret c => slt (snd nk) (v3_dot (fst nk) (v3_from c)) | Panic => false end) h.
(* the box is taken as a whole: for every half-space, the corner picked by the signs of n is in it *)
Definition taken2 (prof : profile) (h : list (Vector2 S * S)) (b : BoundingBox2 S) : bool :=
  forallb (fun nk => match bb2_corner prof b (support2 (fst nk)) with Ret c => sle (v2_dot (fst nk) (v2_from c)) (snd nk) | Panic => false end) h.
Definition taken3 (prof : profile) (h : list (Vector3 S * S)) (b : BoundingBox3 S) : bool :=
  forallb (fun nk => match bb3_corner prof b (support3 (fst nk)) with Ret c => sle (v3_dot (fst nk) (v3_from c)) (snd nk) | Panic => false end) h.
(* all points of the tree in the region; a subtree is thrown away or taken by looking at two corners of its box per half-space *)
Fixpoint visible2 (prof : profile) (h : list (Vector2 S * S)) (t : ptree2 S) : list (Point2 S) :=
  if culled2 prof h (pbounds2 t) then [] else if taken2 prof h (pbounds2 t) then points2 t else match t with
  | PLeaf2 p => if in_region2 h p then [p] else []
  | PNode2 a b => visible2 prof h a ++ visible2 prof h b end.
Fixpoint visible3 (prof : profile) (h : list (Vector3 S * S)) (t : ptree3 S) : list (Point3 S) :=
  if culled3 prof h (pbounds3 t) then [] else if taken3 prof h (pbounds3 t) then points3 t else match t with
  | PLeaf3 p => if in_region3 h p then [p] else []
  | PNode3 a b => visible3 prof h a ++ visible3 prof h b end.
(* the dot products with the corners of the box are finite *)
Definition Dots2 (prof : profile) (h : list (Vector2 S * S)) (b : BoundingBox2 S) : Prop := forall nk c, In nk h -> In c (corners2 prof b) -> Finite (v2_dot (fst nk) (v2_from c)).
Definition Dots3 (prof : profile) (h : list (Vector3 S * S)) (b : BoundingBox3 S) : Prop := forall nk c, In nk h -> In c (corners3 prof b) -> Finite (v3_dot (fst nk) (v3_from c)).
End S.
