(** Specification vocabulary for C115: a client of the crate.  A tree of boxes with stored bounds (an R-tree with two children per
    node) that is changed by insertions and removals, written with union only. *)
From Coq Require Import List Arith.
From Verif Require Import Scalar Types BoundingBox2 BoundingBox3 SpecOrder.
Import ListNotations.
Section S.
Context {S : Type} {O : ScalarOps S}.
Inductive rtree2 := RNil2 | RLeaf2 (b : BoundingBox2 S) (i : nat) | RNode2 (b : BoundingBox2 S) (l r : rtree2).
(* the stored bounds *)
Definition rbox2 (t : rtree2) : BoundingBox2 S := match t with RNil2 => bb2_empty | RLeaf2 b _ => b | RNode2 b _ _ => b end.
(* the stored boxes with their numbers *)
Fixpoint rleaves2 (t : rtree2) : list (BoundingBox2 S * nat) := match t with RNil2 => [] | RLeaf2 b i => [(b, i)] | RNode2 _ l r => rleaves2 l ++ rleaves2 r end.
(* insertion: the bounds on the way down grow by union; [choose] picks the child (for instance by the computed areas of the unions) *)
Fixpoint rinsert2 (choose : BoundingBox2 S -> BoundingBox2 S -> BoundingBox2 S -> bool) (b : BoundingBox2 S) (i : nat) (t : rtree2) : rtree2 := match t with
  | RNil2 => RLeaf2 b i
  | RLeaf2 c j => RNode2 (bb2_union c b) (RLeaf2 c j) (RLeaf2 b i)
  | RNode2 c l r => if choose b (rbox2 l) (rbox2 r) then RNode2 (bb2_union c b) (rinsert2 choose b i l) r else RNode2 (bb2_union c b) l (rinsert2 choose b i r) end.
(* removal of all boxes with number i: an inner node with one child left is replaced by it, other bounds are computed anew *)
Fixpoint rremove2 (i : nat) (t : rtree2) : rtree2 := match t with
  | RNil2 => RNil2
  | RLeaf2 c j => if Nat.eqb i j then RNil2 else t
  | RNode2 c l r => match rremove2 i l, rremove2 i r with RNil2, x => x | x, RNil2 => x | l', r' => RNode2 (bb2_union (rbox2 l') (rbox2 r')) l' r' end end.
(* the numbers of the boxes with property f, skipping every subtree whose bounds do not have it *)
Fixpoint rquery2 (f : BoundingBox2 S -> bool) (t : rtree2) : list nat := match t with
  | RNil2 => []
  | RLeaf2 b i => if f b then [i] else []
  | RNode2 b l r => if f b then rquery2 f l ++ rquery2 f r else [] end.
(* a history: insertions (each with its own rule for the choice of the child) and removals *)
Inductive rop2 := RIns2 (choose : BoundingBox2 S -> BoundingBox2 S -> BoundingBox2 S -> bool) (b : BoundingBox2 S) (i : nat) | RRem2 (i : nat).
Definition rstep2 (t : rtree2) (o : rop2) : rtree2 := match o with RIns2 choose b i => rinsert2 choose b i t | RRem2 i => rremove2 i t end.
Definition rrun2 (h : list rop2) : rtree2 := fold_left rstep2 h RNil2.
(* what should be stored after a history *)
Definition sstep2 (l : list (BoundingBox2 S * nat)) (o : rop2) : list (BoundingBox2 S * nat) := match o with RIns2 _ b i => (b, i) :: l | RRem2 i => filter (fun x => negb (Nat.eqb i (snd x))) l end.
Definition stored2 (h : list rop2) : list (BoundingBox2 S * nat) := fold_left sstep2 h [].
(* all boxes ever inserted are ordered *)
Definition HOrdered2 (h : list rop2) : Prop := forall choose b i, In (RIns2 choose b i) h -> Ordered2 b.
Inductive rtree3 := RNil3 | RLeaf3 (b : BoundingBox3 S) (i : nat) | RNode3 (b : BoundingBox3 S) (l r : rtree3).
(* the stored bounds *)
Definition rbox3 (t : rtree3) : BoundingBox3 S := match t with RNil3 => bb3_empty | RLeaf3 b _ => b | RNode3 b _ _ => b end.
(* the stored boxes with their numbers *)
Fixpoint rleaves3 (t : rtree3) : list (BoundingBox3 S * nat) := match t with RNil3 => [] | RLeaf3 b i => [(b, i)] | RNode3 _ l r => rleaves3 l ++ rleaves3 r end.
(* insertion: the bounds on the way down grow by union; [choose] picks the child (for instance by the computed areas of the unions) *)
Fixpoint rinsert3 (choose : BoundingBox3 S -> BoundingBox3 S -> BoundingBox3 S -> bool) (b : BoundingBox3 S) (i : nat) (t : rtree3) : rtree3 := match t with
  | RNil3 => RLeaf3 b i
  | RLeaf3 c j => RNode3 (bb3_union c b) (RLeaf3 c j) (RLeaf3 b i)
  | RNode3 c l r => if choose b (rbox3 l) (rbox3 r) then RNode3 (bb3_union c b) (rinsert3 choose b i l) r else RNode3 (bb3_union c b) l (rinsert3 choose b i r) end.
(* removal of all boxes with number i: an inner node with one child left is replaced by it, other bounds are computed anew *)
Fixpoint rremove3 (i : nat) (t : rtree3) : rtree3 := match t with
  | RNil3 => RNil3
  | RLeaf3 c j => if Nat.eqb i j then RNil3 else t
  | RNode3 c l r => match rremove3 i l, rremove3 i r with RNil3, x => x | x, RNil3 => x | l', r' => RNode3 (bb3_union (rbox3 l') (rbox3 r')) l' r' end end.
(* the numbers of the boxes with property f, skipping every subtree whose bounds do not have it *)
Fixpoint rquery3 (f : BoundingBox3 S -> bool) (t : rtree3) : list nat := match t with
  | RNil3 => []
  | RLeaf3 b i => if f b then [i] else []
  | RNode3 b l r => if f b then rquery3 f l ++ rquery3 f r else [] end.
(* a history: insertions (each with its own rule for the choice of the child) and removals *)
Inductive rop3 := RIns3 (choose : BoundingBox3 S -> BoundingBox3 S -> BoundingBox3 S -> bool) (b : BoundingBox3 S) (i : nat) | RRem3 (i : nat).
Definition rstep3 (t : rtree3) (o : rop3) : rtree3 := match o with RIns3 choose b i => rinsert3 choose b i t | RRem3 i => rremove3 i t end.
Definition rrun3 (h : list rop3) : rtree3 := fold_left rstep3 h RNil3.
(* what should be stored after a history *)
Definition sstep3 (l : list (BoundingBox3 S * nat)) (o : rop3) : list (BoundingBox3 S * nat) := match o with RIns3 _ b i => (b, i) :: l | RRem3 i => filter (fun x => negb (Nat.eqb i (snd x))) l end.
Definition stored3 (h : list rop3) : list (BoundingBox3 S * nat) := fold_left sstep3 h [].
(* all boxes ever inserted are ordered *)
Definition HOrdered3 (h : list rop3) : Prop := forall choose b i, In (RIns3 choose b i) h -> Ordered3 b.
End S.
Arguments rtree2 : clear implicits.
Arguments rop2 : clear implicits.
Arguments rtree3 : clear implicits.
Arguments rop3 : clear implicits.
