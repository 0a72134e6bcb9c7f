(** Theorems: C115 (a tree of boxes under any history of insertions and removals).
    [A] ranges over f32 and f64 on every platform, and exact reals extended with infinities and NaN. *)
From Coq Require Import Bool NArith ZArith List Permutation.
From Verif Require Import Scalar Types Vector2 Vector3 Point2 Point3 Ray BoundingBox2 BoundingBox3 Float XReal Arith SpecOrder SpecFloat SpecRtree ExVals FloatRtree.
Import ListNotations.
(** after any history the tree stores what it should, and its bounds are the smallest box that contains all of it *)
Theorem C115_contents_2d : forall (A : arith) (h : list (rop2 (num A))), HOrdered2 h ->
  Permutation (rleaves2 (rrun2 h)) (stored2 h) /\
  (stored2 h <> [] -> Ordered2 (rbox2 (rrun2 h)) /\ (forall b i, In (b, i) (stored2 h) -> Incl2 b (rbox2 (rrun2 h))) /\
    forall c : BoundingBox2 (num A), (forall b i, In (b, i) (stored2 h) -> Incl2 b c) -> Incl2 (rbox2 (rrun2 h)) c).
Proof. exact C115_contents_2d_pf. Qed.
Print Assumptions C115_contents_2d.
Theorem C115_contents_3d : forall (A : arith) (h : list (rop3 (num A))), HOrdered3 h ->
  Permutation (rleaves3 (rrun3 h)) (stored3 h) /\
  (stored3 h <> [] -> Ordered3 (rbox3 (rrun3 h)) /\ (forall b i, In (b, i) (stored3 h) -> Incl3 b (rbox3 (rrun3 h))) /\
    forall c : BoundingBox3 (num A), (forall b i, In (b, i) (stored3 h) -> Incl3 b c) -> Incl3 (rbox3 (rrun3 h)) c).
Proof. exact C115_contents_3d_pf. Qed.
Print Assumptions C115_contents_3d.
(** after any history, a search that skips subtrees finds exactly the stored boxes with a property that larger boxes inherit *)
Theorem C115_search_2d : forall (A : arith) (h : list (rop2 (num A))) (f : BoundingBox2 (num A) -> bool), HOrdered2 h -> (forall a b, Ordered2 a -> Ordered2 b -> Incl2 a b -> f a = true -> f b = true) ->
  Permutation (rquery2 f (rrun2 h)) (map snd (filter (fun x => f (fst x)) (stored2 h))).
Proof. exact C115_search_2d_pf. Qed.
Print Assumptions C115_search_2d.
Theorem C115_search_3d : forall (A : arith) (h : list (rop3 (num A))) (f : BoundingBox3 (num A) -> bool), HOrdered3 h -> (forall a b, Ordered3 a -> Ordered3 b -> Incl3 a b -> f a = true -> f b = true) ->
  Permutation (rquery3 f (rrun3 h)) (map snd (filter (fun x => f (fst x)) (stored3 h))).
Proof. exact C115_search_3d_pf. Qed.
Print Assumptions C115_search_3d.
(** in particular the boxes that overlap any given box, and the boxes that contain any given point *)
Theorem C115_overlaps_and_points_2d : forall (A : arith) (h : list (rop2 (num A))) (q : BoundingBox2 (num A)) (p : Point2 (num A)), HOrdered2 h ->
  Permutation (rquery2 (fun b => bb2_overlaps b q) (rrun2 h)) (map snd (filter (fun x => bb2_overlaps (fst x) q) (stored2 h))) /\
  Permutation (rquery2 (fun b => bb2_is_inside b p) (rrun2 h)) (map snd (filter (fun x => bb2_is_inside (fst x) p) (stored2 h))).
Proof. exact C115_overlaps_and_points_2d_pf. Qed.
Print Assumptions C115_overlaps_and_points_2d.
Theorem C115_overlaps_and_points_3d : forall (A : arith) (h : list (rop3 (num A))) (q : BoundingBox3 (num A)) (p : Point3 (num A)), HOrdered3 h ->
  Permutation (rquery3 (fun b => bb3_overlaps b q) (rrun3 h)) (map snd (filter (fun x => bb3_overlaps (fst x) q) (stored3 h))) /\
  Permutation (rquery3 (fun b => bb3_is_inside b p) (rrun3 h)) (map snd (filter (fun x => bb3_is_inside (fst x) p) (stored3 h))).
Proof. exact C115_overlaps_and_points_3d_pf. Qed.
Print Assumptions C115_overlaps_and_points_3d.
(* the hypotheses are met: three boxes inserted, one removed, one query *)
Example C115_example : let bx (a b c d : Z) := (mkBB2 (mkPoint2 (d64 a 0%Z) (d64 c 0%Z)) (mkPoint2 (d64 b 0%Z) (d64 d 0%Z)) : BoundingBox2 (num A64)) in
  let ch b l r := slt (bb2_area (bb2_union b l)) (bb2_area (bb2_union b r)) in
  let h := [RIns2 ch (bx 0 1 0 1) 1; RIns2 ch (bx 5 6 5 6) 2; RIns2 ch (bx 2 3 0 1) 3; RRem2 1; RIns2 ch (bx 4 8 4 8) 4]%Z in
  HOrdered2 h /\ map snd (stored2 h) = [4; 3; 2] /\ rquery2 (fun b => bb2_overlaps b (bx 3 5 0 5)%Z) (rrun2 h) = [3; 2; 4].
Proof.
  cbv zeta. split; [|split; [reflexivity | vm_compute; reflexivity]]. intros ch b i I. repeat (destruct I as [I|I]; [first [discriminate I | injection I as <- <- <-; intros []; vm_compute; reflexivity]|]). destruct I.
Qed.
