(** Specification vocabulary for C93: a client of the crate.  Binary trees of boxes (bounding volume hierarchies) whose inner
    nodes are bounded by the union of their children, and the two usual searches along a ray, written with union and intersect only. *)
From Coq Require Import List.
From Verif Require Import Scalar Types Ray BoundingBox2 BoundingBox3 SpecOrder SpecFloat SpecClip.
Import ListNotations.
Section A.
Context {S : Type} {O : ScalarOps S}.
Inductive tree2 := Leaf2 (b : BoundingBox2 S) | Node2 (l r : tree2).
Inductive tree3 := Leaf3 (b : BoundingBox3 S) | Node3 (l r : tree3).
Fixpoint leaves2 (t : tree2) : list (BoundingBox2 S) := match t with Leaf2 b => [b] | Node2 l r => leaves2 l ++ leaves2 r end.
Fixpoint leaves3 (t : tree3) : list (BoundingBox3 S) := match t with Leaf3 b => [b] | Node3 l r => leaves3 l ++ leaves3 r end.
Fixpoint bounds2 (t : tree2) : BoundingBox2 S := match t with Leaf2 b => b | Node2 l r => bb2_union (bounds2 l) (bounds2 r) end.
Fixpoint bounds3 (t : tree3) : BoundingBox3 S := match t with Leaf3 b => b | Node3 l r => bb3_union (bounds3 l) (bounds3 r) end.
(* no inner node has a face plane in which the ray runs *)
Fixpoint TreeOk2 (r : Ray2 S) (t : tree2) : Prop := match t with Leaf2 _ => True | Node2 a b => NotGrazing2 (bounds2 t) r /\ TreeOk2 r a /\ TreeOk2 r b end.
Fixpoint TreeOk3 (r : Ray3 S) (t : tree3) : Prop := match t with Leaf3 _ => True | Node3 a b => NotGrazing3 (bounds3 t) r /\ TreeOk3 r a /\ TreeOk3 r b end.
Definition hits2 (r : Ray2 S) (b : BoundingBox2 S) : bool := match bb2_intersect_ray b r with Some _ => true | None => false end.
Definition hits3 (r : Ray3 S) (b : BoundingBox3 S) : bool := match bb3_intersect_ray b r with Some _ => true | None => false end.
(* all leaves hit, skipping every subtree whose bounds are missed *)
Fixpoint search2 (r : Ray2 S) (t : tree2) : list (BoundingBox2 S) :=
  if hits2 r (bounds2 t) then match t with Leaf2 b => [b] | Node2 a b => search2 r a ++ search2 r b end else [].
Fixpoint search3 (r : Ray3 S) (t : tree3) : list (BoundingBox3 S) :=
  if hits3 r (bounds3 t) then match t with Leaf3 b => [b] | Node3 a b => search3 r a ++ search3 r b end else [].
(* the smallest start parameter below [best] over all leaves hit, skipping every subtree whose bounds are missed or are not
   entered before [best] *)
Fixpoint nearest2 (r : Ray2 S) (t : tree2) (best : S) : S :=
  match bb2_intersect_ray (bounds2 t) r with
  | Some (s, _) => if slt s best then match t with Leaf2 _ => s | Node2 a b => nearest2 r b (nearest2 r a best) end else best
  | None => best end.
Fixpoint nearest3 (r : Ray3 S) (t : tree3) (best : S) : S :=
  match bb3_intersect_ray (bounds3 t) r with
  | Some (s, _) => if slt s best then match t with Leaf3 _ => s | Node3 a b => nearest3 r b (nearest3 r a best) end else best
  | None => best end.
End A.
Arguments tree2 : clear implicits.
Arguments tree3 : clear implicits.
