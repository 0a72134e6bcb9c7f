(** Specification vocabulary for C118: a client of the crate.  Scene graphs: identified boxes in their own coordinates, groups, and groups moved
    by a transform.  What a scene covers, and the client's programs: casting a ray by handing it down through the inverse transforms
    (bb_intersect_ray at the leaves), picking a point in the same way, and flattening the graph with and_then. *)
From Coq Require Import List NArith Reals.
From Verif Require Import Scalar Types Vector2 Vector3 Point2 Point3 Ray BoundingBox2 BoundingBox3 Transform2 Transform3 XReal SpecReal SpecBox SpecTrans.
Import ListNotations.
Local Open Scope R_scope.
(* the first of the reported parameters *)
Fixpoint first_hit (l : list (N * xreal)) : option (N * xreal) := match l with [] => None
  | (i, s) :: l' => match first_hit l' with None => Some (i, s) | Some (j, u) => if sle s u then Some (i, s) else Some (j, u) end end.
Inductive scene2 := SBox2 (i : N) (b : BoundingBox2 R) | SMove2 (t : Transform2 R) (s : scene2) | SBoth2 (l r : scene2).
(* object i of the scene covers the point p: somewhere below, after undoing the moves on the way, p lies in the box of i *)
Fixpoint Covers2 (s : scene2) (i : N) (p : Point2 R) : Prop := match s with
  | SBox2 j b => i = j /\ Rin2 p b
  | SMove2 t s' => exists q : Point2 R, Covers2 s' i q /\ t2_transform_point (XT2 t) (XP2 q) = XP2 p
  | SBoth2 l r => Covers2 l i p \/ Covers2 r i p end.
(* boxes have min <= max, and the moves are affine transforms built by the API *)
Fixpoint SceneOk2 (s : scene2) : Prop := match s with
  | SBox2 _ b => Rordered2 b
  | SMove2 t s' => Built2 affine2 (XT2 t) /\ SceneOk2 s'
  | SBoth2 l r => SceneOk2 l /\ SceneOk2 r end.
(* the ray, in the coordinates of a box, never runs inside the plane of one of its faces (see C16) *)
Fixpoint Clear2 (s : scene2) (r : Ray2 R) : Prop := match s with
  | SBox2 _ b => off_faces2 b r
  | SMove2 t s' => forall r' : Ray2 R, t2_transform_ray (t2_inverse (XT2 t)) (XR2 r) = XR2 r' -> Clear2 s' r'
  | SBoth2 l r1 => Clear2 l r /\ Clear2 r1 r end.
Fixpoint cast2 (s : scene2) (r : Ray2 xreal) : list (N * xreal) := match s with
  | SBox2 i b => match bb2_intersect_ray (XB2 b) r with Some (s0, _) => [(i, s0)] | None => [] end
  | SMove2 t s' => cast2 s' (t2_transform_ray (t2_inverse (XT2 t)) r)
  | SBoth2 l r1 => cast2 l r ++ cast2 r1 r end.
Fixpoint pick2 (s : scene2) (p : Point2 xreal) : list N := match s with
  | SBox2 i b => if bb2_is_inside (XB2 b) p then [i] else []
  | SMove2 t s' => pick2 s' (t2_transform_point (t2_inverse (XT2 t)) p)
  | SBoth2 l r => pick2 l p ++ pick2 r p end.
(* the list of all boxes, each with one transform from its own coordinates to the world's; [t] is the transform of the whole scene *)
Fixpoint flatten2 (t : Transform2 xreal) (s : scene2) : list (N * Transform2 xreal * BoundingBox2 R) := match s with
  | SBox2 i b => [(i, t, b)]
  | SMove2 u s' => flatten2 (t2_and_then (XT2 u) t) s'
  | SBoth2 l r => flatten2 t l ++ flatten2 t r end.
Inductive scene3 := SBox3 (i : N) (b : BoundingBox3 R) | SMove3 (t : Transform3 R) (s : scene3) | SBoth3 (l r : scene3).
(* object i of the scene covers the point p: somewhere below, after undoing the moves on the way, p lies in the box of i *)
Fixpoint Covers3 (s : scene3) (i : N) (p : Point3 R) : Prop := match s with
  | SBox3 j b => i = j /\ Rin3 p b
  | SMove3 t s' => exists q : Point3 R, Covers3 s' i q /\ t3_transform_point (XT3 t) (XP3 q) = XP3 p
  | SBoth3 l r => Covers3 l i p \/ Covers3 r i p end.
(* boxes have min <= max, and the moves are affine transforms built by the API *)
Fixpoint SceneOk3 (s : scene3) : Prop := match s with
  | SBox3 _ b => Rordered3 b
  | SMove3 t s' => Built3 affine3 (XT3 t) /\ SceneOk3 s'
  | SBoth3 l r => SceneOk3 l /\ SceneOk3 r end.
(* the ray, in the coordinates of a box, never runs inside the plane of one of its faces (see C16) *)
Fixpoint Clear3 (s : scene3) (r : Ray3 R) : Prop := match s with
  | SBox3 _ b => off_faces3 b r
  | SMove3 t s' => forall r' : Ray3 R, t3_transform_ray (t3_inverse (XT3 t)) (XR3 r) = XR3 r' -> Clear3 s' r'
  | SBoth3 l r1 => Clear3 l r /\ Clear3 r1 r end.
Fixpoint cast3 (s : scene3) (r : Ray3 xreal) : list (N * xreal) := match s with
  | SBox3 i b => match bb3_intersect_ray (XB3 b) r with Some (s0, _) => [(i, s0)] | None => [] end
  | SMove3 t s' => cast3 s' (t3_transform_ray (t3_inverse (XT3 t)) r)
  | SBoth3 l r1 => cast3 l r ++ cast3 r1 r end.
Fixpoint pick3 (s : scene3) (p : Point3 xreal) : list N := match s with
  | SBox3 i b => if bb3_is_inside (XB3 b) p then [i] else []
  | SMove3 t s' => pick3 s' (t3_transform_point (t3_inverse (XT3 t)) p)
  | SBoth3 l r => pick3 l p ++ pick3 r p end.
(* the list of all boxes, each with one transform from its own coordinates to the world's; [t] is the transform of the whole scene *)
Fixpoint flatten3 (t : Transform3 xreal) (s : scene3) : list (N * Transform3 xreal * BoundingBox3 R) := match s with
  | SBox3 i b => [(i, t, b)]
  | SMove3 u s' => flatten3 (t3_and_then (XT3 u) t) s'
  | SBoth3 l r => flatten3 t l ++ flatten3 t r end.
