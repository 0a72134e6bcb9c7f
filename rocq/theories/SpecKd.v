(** Specification vocabulary for C102: a client of the crate.  A box is cut by an axis-aligned plane by assigning one coordinate of
    one corner, and recursively into the cells of a kd-tree; the cells are visited along a ray, front to back. *)
From Coq Require Import List.
From Verif Require Import Scalar Types Vector2 Vector3 Point2 Point3 Ray BoundingBox2 BoundingBox3 SpecOrder SpecFloat SpecClip SpecBvh.
Import ListNotations.
Section A.
Context {S : Type} {O : ScalarOps S}.
(* b.max[d] = m, and b.min[d] = m *)
Definition below2 (b : BoundingBox2 S) (d : Dimension2) (m : S) : BoundingBox2 S := mkBB2 (bb2_min b) (p2_index_set (bb2_max b) d m).
Definition above2 (b : BoundingBox2 S) (d : Dimension2) (m : S) : BoundingBox2 S := mkBB2 (p2_index_set (bb2_min b) d m) (bb2_max b).
Definition below3 (b : BoundingBox3 S) (d : Dimension3) (m : S) : BoundingBox3 S := mkBB3 (bb3_min b) (p3_index_set (bb3_max b) d m).
Definition above3 (b : BoundingBox3 S) (d : Dimension3) (m : S) : BoundingBox3 S := mkBB3 (p3_index_set (bb3_min b) d m) (bb3_max b).
Inductive kd2 := Cell2 | Split2 (d : Dimension2) (m : S) (lo hi : kd2).
Inductive kd3 := Cell3 | Split3 (d : Dimension3) (m : S) (lo hi : kd3).
(* every cut goes through the box it cuts *)
Fixpoint KdOk2 (b : BoundingBox2 S) (t : kd2) : Prop := match t with Cell2 => True | Split2 d m lo hi =>
  Le (coord2 (bb2_min b) d) m /\ Le m (coord2 (bb2_max b) d) /\ KdOk2 (below2 b d m) lo /\ KdOk2 (above2 b d m) hi end.
Fixpoint KdOk3 (b : BoundingBox3 S) (t : kd3) : Prop := match t with Cell3 => True | Split3 d m lo hi =>
  Le (coord3 (bb3_min b) d) m /\ Le m (coord3 (bb3_max b) d) /\ KdOk3 (below3 b d m) lo /\ KdOk3 (above3 b d m) hi end.
(* the ray runs in no cutting plane *)
Definition OffPlane2 (r : Ray2 S) (d : Dimension2) (m : S) : Prop := Eqs (vcoord2 (r2_direction r) d) szero -> ~ Eqs (coord2 (r2_origin r) d) m.
Definition OffPlane3 (r : Ray3 S) (d : Dimension3) (m : S) : Prop := Eqs (vcoord3 (r3_direction r) d) szero -> ~ Eqs (coord3 (r3_origin r) d) m.
Fixpoint OffPlanes2 (r : Ray2 S) (t : kd2) : Prop := match t with Cell2 => True | Split2 d m lo hi => OffPlane2 r d m /\ OffPlanes2 r lo /\ OffPlanes2 r hi end.
Fixpoint OffPlanes3 (r : Ray3 S) (t : kd3) : Prop := match t with Cell3 => True | Split3 d m lo hi => OffPlane3 r d m /\ OffPlanes3 r lo /\ OffPlanes3 r hi end.
Fixpoint cells2 (b : BoundingBox2 S) (t : kd2) : list (BoundingBox2 S) := match t with Cell2 => [b] | Split2 d m lo hi => cells2 (below2 b d m) lo ++ cells2 (above2 b d m) hi end.
Fixpoint cells3 (b : BoundingBox3 S) (t : kd3) : list (BoundingBox3 S) := match t with Cell3 => [b] | Split3 d m lo hi => cells3 (below3 b d m) lo ++ cells3 (above3 b d m) hi end.
(* the cells hit, the half on the side the ray comes from first, skipping every box that is missed *)
Fixpoint walk2 (r : Ray2 S) (b : BoundingBox2 S) (t : kd2) : list (BoundingBox2 S) :=
  if hits2 r b then match t with Cell2 => [b] | Split2 d m lo hi =>
    if slt (v2_index (r2_direction r) d) szero then walk2 r (above2 b d m) hi ++ walk2 r (below2 b d m) lo
    else walk2 r (below2 b d m) lo ++ walk2 r (above2 b d m) hi end else [].
Fixpoint walk3 (r : Ray3 S) (b : BoundingBox3 S) (t : kd3) : list (BoundingBox3 S) :=
  if hits3 r b then match t with Cell3 => [b] | Split3 d m lo hi =>
    if slt (v3_index (r3_direction r) d) szero then walk3 r (above3 b d m) hi ++ walk3 r (below3 b d m) lo
    else walk3 r (below3 b d m) lo ++ walk3 r (above3 b d m) hi end else [].
(* every finite parameter in an earlier box is at most every finite parameter in a later one *)
Definition Before2 (r : Ray2 S) (a b : BoundingBox2 S) : Prop := forall t t', Finite t -> Finite t' -> HitAt2 a r t -> HitAt2 b r t' -> Le t t'.
Definition Before3 (r : Ray3 S) (a b : BoundingBox3 S) : Prop := forall t t', Finite t -> Finite t' -> HitAt3 a r t -> HitAt3 b r t' -> Le t t'.
End A.
Arguments kd2 : clear implicits.
Arguments kd3 : clear implicits.
