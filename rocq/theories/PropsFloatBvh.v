(** Theorems: C93 (searching a bounding volume hierarchy).
    [A] ranges over f32 and f64 on every platform, and exact reals extended with infinities and NaN. *)
From Coq Require Import Bool NArith ZArith Reals List Lia.
From Verif Require Import Scalar Types Vector2 Vector3 Point2 Point3 Ray BoundingBox2 BoundingBox3 Float XReal Arith SpecOrder SpecFloat SpecClip SpecBvh ExVals FloatBvh.
Import ListNotations.
(** skipping the subtrees whose bounds are missed loses no leaf: the pruned search returns exactly the leaves hit, in order *)
Theorem C93_search_complete_2d : forall (A : arith) (t : tree2 (num A)) (r : Ray2 (num A)), Forall Ordered2 (leaves2 t) -> Finite2 (r2_origin r) -> VFinite2 (r2_direction r) -> TreeOk2 r t ->
  search2 r t = filter (hits2 r) (leaves2 t).
Proof. exact C93_search_complete_2d_pf. Qed.
Print Assumptions C93_search_complete_2d.
Theorem C93_search_complete_3d : forall (A : arith) (t : tree3 (num A)) (r : Ray3 (num A)), Forall Ordered3 (leaves3 t) -> Finite3 (r3_origin r) -> VFinite3 (r3_direction r) -> TreeOk3 r t ->
  search3 r t = filter (hits3 r) (leaves3 t).
Proof. exact C93_search_complete_3d_pf. Qed.
Print Assumptions C93_search_complete_3d.
(** the nearest-hit search that also skips subtrees not entered before the best hit so far: the smallest start of all leaves hit, infinity if there is none *)
Theorem C93_nearest_correct_2d : forall (A : arith) (t : tree2 (num A)) (r : Ray2 (num A)), Forall Ordered2 (leaves2 t) -> Finite2 (r2_origin r) -> VFinite2 (r2_direction r) -> TreeOk2 r t ->
  let m := nearest2 r t sinf in
  (forall b s e, In b (leaves2 t) -> bb2_intersect_ray b r = Some (s, e) -> Le m s) /\
  (m = sinf \/ exists b e, In b (leaves2 t) /\ bb2_intersect_ray b r = Some (m, e)).
Proof. exact C93_nearest_correct_2d_pf. Qed.
Print Assumptions C93_nearest_correct_2d.
Theorem C93_nearest_correct_3d : forall (A : arith) (t : tree3 (num A)) (r : Ray3 (num A)), Forall Ordered3 (leaves3 t) -> Finite3 (r3_origin r) -> VFinite3 (r3_direction r) -> TreeOk3 r t ->
  let m := nearest3 r t sinf in
  (forall b s e, In b (leaves3 t) -> bb3_intersect_ray b r = Some (s, e) -> Le m s) /\
  (m = sinf \/ exists b e, In b (leaves3 t) /\ bb3_intersect_ray b r = Some (m, e)).
Proof. exact C93_nearest_correct_3d_pf. Qed.
Print Assumptions C93_nearest_correct_3d.
(** the condition on inner nodes is needed: a flat leaf that is hit lies in a face of its parent, and the search loses it *)
Theorem C93_grazing_hit_lost : let a := mkBB2 (mkPoint2 (d64 1 0) (d64 0 0)) (mkPoint2 (d64 2 0) (d64 0 0)) in let b := mkBB2 (mkPoint2 (d64 1 0) (d64 0 0)) (mkPoint2 (d64 2 0) (d64 1 0)) in
  let r := mkRay2 (mkPoint2 (d64 0 0) (d64 0 0)) (mkVector2 (d64 1 0) (d64 0 0)) in let t := Node2 (Leaf2 a) (Leaf2 b) : tree2 (num A64) in
  Ordered2 a /\ Ordered2 b /\ Finite2 (r2_origin r) /\ VFinite2 (r2_direction r) /\ hits2 r a = true /\ search2 r t = [] /\ Eqs (nearest2 r t sinf) sinf.
Proof. exact C93_grazing_hit_lost_pf. Qed.
Print Assumptions C93_grazing_hit_lost.
(* the hypotheses are met: a tree of three boxes, a ray that hits the first and the third; the nearest is the third *)
Definition bx3 (x : Z) : BoundingBox3 (num A64) := mkBB3 (mkPoint3 (d64 x 0) (nd64 1 0) (nd64 1 0)) (mkPoint3 (d64 (x + 1) 0) (d64 1 0) (d64 1 0)).
Definition off3 : BoundingBox3 (num A64) := mkBB3 (mkPoint3 (d64 3 0) (d64 5 0) (nd64 1 0)) (mkPoint3 (d64 4 0) (d64 6 0) (d64 1 0)).
Example C93_example : let r := mkRay3 (mkPoint3 (d64 0 0) (d64 0 0) (d64 0 0)) (mkVector3 (d64 1 0) (d64 1 (-3)) (d64 0 0)) : Ray3 (num A64) in
  let t := Node3 (Node3 (Leaf3 (bx3 5)) (Leaf3 off3)) (Leaf3 (bx3 1)) in
  Forall Ordered3 (leaves3 t) /\ Finite3 (r3_origin r) /\ VFinite3 (r3_direction r) /\ TreeOk3 r t /\ length (search3 r t) = 2 /\ Eqs (nearest3 r t sinf) (d64 1 0).
Proof.
  cbv zeta. split; [repeat (constructor; [intros []; vm_compute; reflexivity|]); constructor|]. split; [intros []; vm_compute; reflexivity|]. split; [intros []; vm_compute; reflexivity|].
  split; [|split; vm_compute; reflexivity].
  cbn [TreeOk3]. repeat match goal with |- _ /\ _ => split | |- True => exact I end; intros [] K; vm_compute in K; try discriminate K; split; vm_compute; discriminate.
Qed.
