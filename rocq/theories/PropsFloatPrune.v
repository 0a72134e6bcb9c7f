(** Theorems: C113 (sweep and prune).
    [A] ranges over f32 and f64 on every platform, and exact reals extended with infinities and NaN. *)
From Coq Require Import Bool NArith ZArith List Permutation Sorted.
From Verif Require Import Scalar Types Vector2 Vector3 Point2 Point3 Ray BoundingBox2 BoundingBox3 Float XReal Arith SpecOrder SpecFloat SpecPrune ExVals FloatPrune.
Import ListNotations.
(** over boxes sorted by their lower faces along an axis, the sweep finds exactly the overlapping pairs *)
Theorem C113_sweep_2d : forall (A : arith) (d : Dimension2) (l : list (BoundingBox2 (num A))), StronglySorted (fun a c => Le (coord2 (bb2_min a) d) (coord2 (bb2_min c) d)) l ->
  sweep2 d l = filter (fun bc => bb2_overlaps (fst bc) (snd bc)) (pairs l).
Proof. exact C113_sweep_2d_pf. Qed.
Print Assumptions C113_sweep_2d.
Theorem C113_sweep_3d : forall (A : arith) (d : Dimension3) (l : list (BoundingBox3 (num A))), StronglySorted (fun a c => Le (coord3 (bb3_min a) d) (coord3 (bb3_min c) d)) l ->
  sweep3 d l = filter (fun bc => bb3_overlaps (fst bc) (snd bc)) (pairs l).
Proof. exact C113_sweep_3d_pf. Qed.
Print Assumptions C113_sweep_3d.
(** sorting along any axis and sweeping loses no pair and reports none twice, whatever the order of the list *)
Theorem C113_sort_and_sweep_2d : forall (A : arith) (d : Dimension2) (l : list (BoundingBox2 (num A))), (forall b, In b l -> NoNaN (coord2 (bb2_min b) d)) ->
  Permutation (isort2 d l) l /\
  length (sweep2 d (isort2 d l)) = length (filter (fun bc => bb2_overlaps (fst bc) (snd bc)) (pairs l)) /\
  forall a b, (In (a, b) (sweep2 d (isort2 d l)) \/ In (b, a) (sweep2 d (isort2 d l))) <-> bb2_overlaps a b = true /\ (In (a, b) (pairs l) \/ In (b, a) (pairs l)).
Proof. exact C113_sort_and_sweep_2d_pf. Qed.
Print Assumptions C113_sort_and_sweep_2d.
Theorem C113_sort_and_sweep_3d : forall (A : arith) (d : Dimension3) (l : list (BoundingBox3 (num A))), (forall b, In b l -> NoNaN (coord3 (bb3_min b) d)) ->
  Permutation (isort3 d l) l /\
  length (sweep3 d (isort3 d l)) = length (filter (fun bc => bb3_overlaps (fst bc) (snd bc)) (pairs l)) /\
  forall a b, (In (a, b) (sweep3 d (isort3 d l)) \/ In (b, a) (sweep3 d (isort3 d l))) <-> bb3_overlaps a b = true /\ (In (a, b) (pairs l) \/ In (b, a) (pairs l)).
Proof. exact C113_sort_and_sweep_3d_pf. Qed.
Print Assumptions C113_sort_and_sweep_3d.
(* the hypotheses are met *)
Example C113_example : let bx (a b c d : Z) := (mkBB2 (mkPoint2 (d64 a 0%Z) (d64 c 0%Z)) (mkPoint2 (d64 b 0%Z) (d64 d 0%Z)) : BoundingBox2 (num A64)) in let l := [bx 5 9 0 1; bx 0 6 0 4; bx 7 8 1 3; bx 1 2 3 9]%Z in
  (forall b, In b l -> NoNaN (coord2 (bb2_min b) D2X)) /\ length (sweep2 D2X (isort2 D2X l)) = 3%nat.
Proof. cbv zeta. split; [|vm_compute; reflexivity]. intros b I. repeat (destruct I as [<-|I]; [vm_compute; reflexivity|]). destruct I. Qed.
