(** Theorems: C117 (searching a tree of balls).
    [A] ranges over f32 and f64 on every platform, and exact reals extended with infinities and NaN. *)
From Coq Require Import Bool NArith ZArith Reals List Lra.
From Flocq Require Import Core.Defs.
From Verif Require Import Scalar Types Vector2 Vector3 Point2 Point3 Float XReal Arith SpecOrder SpecFloat SpecReal SpecErr SpecBtree ExVals FloatErr FloatTri FloatBtree.
Import ListNotations.
Local Open Scope R_scope.
(** the search that skips balls returns exactly the points within R of q, in the order of the tree, if the slack is at least 20 units of roundoff *)
Theorem C117_range_search_2d : forall (A : arith) (slack R : num A) (q : Point2 (num A)) (t : btree2 (num A)), Finite slack -> 1 + 20 * unit_roundoff A <= real_of slack -> BallsOk2 t -> AllMeasured2 q t ->
  within2 slack q R t = filter (fun x => sle (p2_distance q x) R) (bpoints2 t).
Proof. exact C117_range_search_2d_pf. Qed.
Print Assumptions C117_range_search_2d.
Theorem C117_range_search_3d : forall (A : arith) (slack R : num A) (q : Point3 (num A)) (t : btree3 (num A)), Finite slack -> 1 + 20 * unit_roundoff A <= real_of slack -> BallsOk3 t -> AllMeasured3 q t ->
  within3 slack q R t = filter (fun x => sle (p3_distance q x) R) (bpoints3 t).
Proof. exact C117_range_search_3d_pf. Qed.
Print Assumptions C117_range_search_3d.
(** the search for the least distance returns the least distance of all points *)
Theorem C117_nearest_search_2d : forall (A : arith) (slack : num A) (q : Point2 (num A)) (t : btree2 (num A)), Finite slack -> 1 + 20 * unit_roundoff A <= real_of slack -> BallsOk2 t -> AllMeasured2 q t ->
  (forall x, In x (bpoints2 t) -> Le (least2 slack q t sinf) (p2_distance q x)) /\ exists x, In x (bpoints2 t) /\ least2 slack q t sinf = p2_distance q x.
Proof. exact C117_nearest_search_2d_pf. Qed.
Print Assumptions C117_nearest_search_2d.
Theorem C117_nearest_search_3d : forall (A : arith) (slack : num A) (q : Point3 (num A)) (t : btree3 (num A)), Finite slack -> 1 + 20 * unit_roundoff A <= real_of slack -> BallsOk3 t -> AllMeasured3 q t ->
  (forall x, In x (bpoints3 t) -> Le (least3 slack q t sinf) (p3_distance q x)) /\ exists x, In x (bpoints3 t) /\ least3 slack q t sinf = p3_distance q x.
Proof. exact C117_nearest_search_3d_pf. Qed.
Print Assumptions C117_nearest_search_3d.
(** in exact arithmetic no slack is needed, and all distances of finite points are measured *)
Theorem C117_exact_2d : forall (R : num EXACT) (q : Point2 (num EXACT)) (t : btree2 (num EXACT)), Finite2 q -> BallsOk2 t -> (forall x, In x (bpoints2 t) -> Finite2 x) -> (forall c, In c (bcentres2 t) -> Finite2 c) ->
  within2 sone q R t = filter (fun x => sle (p2_distance q x) R) (bpoints2 t) /\
  (forall x, In x (bpoints2 t) -> Le (least2 sone q t sinf) (p2_distance q x)) /\ exists x, In x (bpoints2 t) /\ least2 sone q t sinf = p2_distance q x.
Proof. exact C117_exact_2d_pf. Qed.
Print Assumptions C117_exact_2d.
Theorem C117_exact_3d : forall (R : num EXACT) (q : Point3 (num EXACT)) (t : btree3 (num EXACT)), Finite3 q -> BallsOk3 t -> (forall x, In x (bpoints3 t) -> Finite3 x) -> (forall c, In c (bcentres3 t) -> Finite3 c) ->
  within3 sone q R t = filter (fun x => sle (p3_distance q x) R) (bpoints3 t) /\
  (forall x, In x (bpoints3 t) -> Le (least3 sone q t sinf) (p3_distance q x)) /\ exists x, In x (bpoints3 t) /\ least3 sone q t sinf = p3_distance q x.
Proof. exact C117_exact_3d_pf. Qed.
Print Assumptions C117_exact_3d.
(** in f64 the slack is needed: without it a point in range is lost, and the nearest point is missed *)
Theorem C117_slack_is_needed_2d : exists (q : Point2 (num A64)) (R : num A64) (t : btree2 (num A64)), BallsOk2 t /\ AllMeasured2 q t /\
  within2 sone q R t = [] /\ exists x, In x (bpoints2 t) /\ Le (p2_distance q x) R.
Proof. exact C117_slack_is_needed_2d_pf. Qed.
Print Assumptions C117_slack_is_needed_2d.
Theorem C117_slack_is_needed_3d : exists (q : Point3 (num A64)) (R : num A64) (t : btree3 (num A64)), BallsOk3 t /\ AllMeasured3 q t /\
  within3 sone q R t = [] /\ exists x, In x (bpoints3 t) /\ Le (p3_distance q x) R.
Proof. exact C117_slack_is_needed_3d_pf. Qed.
Print Assumptions C117_slack_is_needed_3d.
(* the hypotheses are met, with the slack 1 + 2^-48, by the tree that needs it *)
Example C117_example_2d : let P := (fun k => mkPoint2 (d64 k 0) (d64 k 0)) : Z -> Point2 (num A64) in let t := BNode2 (P 4%Z) (p2_distance (P 4%Z) (P 1%Z)) (BLeaf2 (P 1%Z)) (BLeaf2 (P 1%Z)) in
  let slack := d64 281474976710657 (-48) : num A64 in Finite slack /\ 1 + 20 * unit_roundoff A64 <= real_of slack /\ BallsOk2 t /\ AllMeasured2 (P 0%Z) t /\
  length (within2 slack (P 0%Z) (p2_distance (P 0%Z) (P 1%Z)) t) = 2%nat /\ Eqs (least2 slack (P 0%Z) t sinf) (p2_distance (P 0%Z) (P 1%Z)).
Proof.
  intros P t slack. split; [vm_compute; reflexivity|]. split.
  { assert (V : real_of slack = 281474976710657 * / 281474976710656) by (unfold slack; cbn -[Rinv IZR]; unfold Defs.F2R; cbn -[Rinv IZR]; lra). rewrite V. cbn -[Rinv IZR]. lra. }
  split; [split; [|split; exact I]; intros x [<-|[<-|[]]]; vm_compute; reflexivity|].
  split; [split; [|split; [intros x [<-|[<-|[]]]|split]]; (split; [vm_compute; reflexivity | right; apply dot_ge_1_ok; vm_compute; reflexivity])|].
  split; vm_compute; reflexivity.
Qed.
(* the hypotheses are met, with the slack 1 + 2^-48, by the tree that needs it *)
Example C117_example_3d : let P := (fun k => mkPoint3 (d64 k 0) (d64 k 0) (d64 k 0)) : Z -> Point3 (num A64) in let t := BNode3 (P 5%Z) (p3_distance (P 5%Z) (P 1%Z)) (BLeaf3 (P 1%Z)) (BLeaf3 (P 1%Z)) in
  let slack := d64 281474976710657 (-48) : num A64 in Finite slack /\ 1 + 20 * unit_roundoff A64 <= real_of slack /\ BallsOk3 t /\ AllMeasured3 (P 0%Z) t /\
  length (within3 slack (P 0%Z) (p3_distance (P 0%Z) (P 1%Z)) t) = 2%nat /\ Eqs (least3 slack (P 0%Z) t sinf) (p3_distance (P 0%Z) (P 1%Z)).
Proof.
  intros P t slack. split; [vm_compute; reflexivity|]. split.
  { assert (V : real_of slack = 281474976710657 * / 281474976710656) by (unfold slack; cbn -[Rinv IZR]; unfold Defs.F2R; cbn -[Rinv IZR]; lra). rewrite V. cbn -[Rinv IZR]. lra. }
  split; [split; [|split; exact I]; intros x [<-|[<-|[]]]; vm_compute; reflexivity|].
  split; [split; [|split; [intros x [<-|[<-|[]]]|split]]; (split; [vm_compute; reflexivity | right; apply dot_ge_1_ok; vm_compute; reflexivity])|].
  split; vm_compute; reflexivity.
Qed.
