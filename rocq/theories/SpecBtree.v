(** Specification vocabulary for C117: a client of the crate.  Trees of points whose inner nodes store a ball (a centre and a radius)
    that contains the points below, and searches that skip a ball by comparing computed distances. *)
From Coq Require Import List Reals.
From Verif Require Import Scalar Types Vector2 Vector3 Point2 Point3 Arith SpecOrder SpecFloat SpecErr.
Import ListNotations.
Section A.
Context {S : Type} {O : ScalarOps S}.
Inductive btree2 := BLeaf2 (p : Point2 S) | BNode2 (c : Point2 S) (radius : S) (l r : btree2).
Inductive btree3 := BLeaf3 (p : Point3 S) | BNode3 (c : Point3 S) (radius : S) (l r : btree3).
Fixpoint bpoints2 (t : btree2) : list (Point2 S) := match t with BLeaf2 p => [p] | BNode2 _ _ l r => bpoints2 l ++ bpoints2 r end.
Fixpoint bpoints3 (t : btree3) : list (Point3 S) := match t with BLeaf3 p => [p] | BNode3 _ _ l r => bpoints3 l ++ bpoints3 r end.
Fixpoint bcentres2 (t : btree2) : list (Point2 S) := match t with BLeaf2 _ => [] | BNode2 c _ l r => c :: bcentres2 l ++ bcentres2 r end.
Fixpoint bcentres3 (t : btree3) : list (Point3 S) := match t with BLeaf3 _ => [] | BNode3 c _ l r => c :: bcentres3 l ++ bcentres3 r end.
(* every ball contains the points below it, by the computed distances *)
Fixpoint BallsOk2 (t : btree2) : Prop := match t with BLeaf2 _ => True
  | BNode2 c radius l r => (forall x, In x (bpoints2 l ++ bpoints2 r) -> Le (p2_distance c x) radius) /\ BallsOk2 l /\ BallsOk2 r end.
Fixpoint BallsOk3 (t : btree3) : Prop := match t with BLeaf3 _ => True
  | BNode3 c radius l r => (forall x, In x (bpoints3 l ++ bpoints3 r) -> Le (p3_distance c x) radius) /\ BallsOk3 l /\ BallsOk3 r end.
(* the points within R of q, skipping every ball whose centre is farther than slack * (R + radius) from q *)
Fixpoint within2 (slack : S) (q : Point2 S) (R : S) (t : btree2) : list (Point2 S) := match t with
  | BLeaf2 p => if sle (p2_distance q p) R then [p] else []
  | BNode2 c radius l r => if slt (smul slack (sadd R radius)) (p2_distance q c) then [] else within2 slack q R l ++ within2 slack q R r end.
Fixpoint within3 (slack : S) (q : Point3 S) (R : S) (t : btree3) : list (Point3 S) := match t with
  | BLeaf3 p => if sle (p3_distance q p) R then [p] else []
  | BNode3 c radius l r => if slt (smul slack (sadd R radius)) (p3_distance q c) then [] else within3 slack q R l ++ within3 slack q R r end.
(* the least of [best] and the distances from q to the points, skipping in the same way with the best distance found so far *)
Fixpoint least2 (slack : S) (q : Point2 S) (t : btree2) (best : S) : S := match t with
  | BLeaf2 p => if slt (p2_distance q p) best then p2_distance q p else best
  | BNode2 c radius l r => if slt (smul slack (sadd best radius)) (p2_distance q c) then best else least2 slack q r (least2 slack q l best) end.
Fixpoint least3 (slack : S) (q : Point3 S) (t : btree3) (best : S) : S := match t with
  | BLeaf3 p => if slt (p3_distance q p) best then p3_distance q p else best
  | BNode3 c radius l r => if slt (smul slack (sadd best radius)) (p3_distance q c) then best else least3 slack q r (least3 slack q l best) end.
End A.
Arguments btree2 : clear implicits.
Arguments btree3 : clear implicits.
Section B.
Context {A : arith}.
Local Open Scope R_scope.
(* the squared distance neither overflows nor underflows (the range of C55), or the points coincide *)
Definition Measured2 (x y : Point2 (num A)) : Prop := let v := p2_sub y x in
  Finite (v2_dot v v) /\ (PEq2 x y \/ min_subnormal A <= unit_roundoff A * real_of (v2_dot v v)).
Definition Measured3 (x y : Point3 (num A)) : Prop := let v := p3_sub y x in
  Finite (v3_dot v v) /\ (PEq3 x y \/ min_subnormal A <= unit_roundoff A * real_of (v3_dot v v)).
(* the distances that a search from q depends on are measured *)
Fixpoint AllMeasured2 (q : Point2 (num A)) (t : btree2 (num A)) : Prop := match t with BLeaf2 p => Measured2 q p
  | BNode2 c _ l r => Measured2 q c /\ (forall x, In x (bpoints2 l ++ bpoints2 r) -> Measured2 c x) /\ AllMeasured2 q l /\ AllMeasured2 q r end.
Fixpoint AllMeasured3 (q : Point3 (num A)) (t : btree3 (num A)) : Prop := match t with BLeaf3 p => Measured3 q p
  | BNode3 c _ l r => Measured3 q c /\ (forall x, In x (bpoints3 l ++ bpoints3 r) -> Measured3 c x) /\ AllMeasured3 q l /\ AllMeasured3 q r end.
End B.
