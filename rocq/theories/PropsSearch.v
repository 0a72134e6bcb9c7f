(** Theorems: C64 (nearest and farthest candidate, shortest and longest vector of a list, found with the crate's free functions),
    C65 (componentwise minimum and maximum of a list). *)
From Coq Require Import Bool NArith ZArith List Lia.
From Verif Require Import Scalar Types Vector2 Vector3 Point2 Point3 Ray BoundingBox2 BoundingBox3 OrdLaws Arith SpecOrder ExVals Api Search.
Import ListNotations.
(** * C64: the nearest and the farthest of a list of candidates, found by folding the free functions closest and farthest *)
Theorem C64_nearest_2d : forall (A : arith) (v p0 : Point2 (num A)) (l : list (Point2 (num A))), (forall p, In p (p0 :: l) -> NoNaN (api_distance v p)) ->
  let c := fold_left (api_closest v) l p0 in let f := fold_left (api_farthest v) l p0 in
  (In c (p0 :: l) /\ forall p, In p (p0 :: l) -> Le (api_distance v c) (api_distance v p) /\ tr_is_closer_to v p c = false) /\
  (In f (p0 :: l) /\ forall p, In p (p0 :: l) -> Le (api_distance v p) (api_distance v f) /\ tr_is_farther_from v p f = false).
Proof. exact C64_nearest_2d_pf. Qed.
Print Assumptions C64_nearest_2d.
Theorem C64_nearest_3d : forall (A : arith) (v p0 : Point3 (num A)) (l : list (Point3 (num A))), (forall p, In p (p0 :: l) -> NoNaN (api_distance v p)) ->
  let c := fold_left (api_closest v) l p0 in let f := fold_left (api_farthest v) l p0 in
  (In c (p0 :: l) /\ forall p, In p (p0 :: l) -> Le (api_distance v c) (api_distance v p) /\ tr_is_closer_to v p c = false) /\
  (In f (p0 :: l) /\ forall p, In p (p0 :: l) -> Le (api_distance v p) (api_distance v f) /\ tr_is_farther_from v p f = false).
Proof. exact C64_nearest_3d_pf. Qed.
Print Assumptions C64_nearest_3d.
(** a candidate at NaN distance makes the search forget every candidate before it *)
Theorem C64_nan_candidate_forgets_2d : forall (A : arith) (v p0 n q : Point2 (num A)) (l1 l2 : list (Point2 (num A))), ~ NoNaN (api_distance v n) ->
  fold_left (api_closest v) (l1 ++ n :: q :: l2) p0 = fold_left (api_closest v) l2 q /\ fold_left (api_closest v) (l1 ++ [n]) p0 = n /\
  fold_left (api_farthest v) (l1 ++ n :: q :: l2) p0 = fold_left (api_farthest v) l2 q /\ fold_left (api_farthest v) (l1 ++ [n]) p0 = n.
Proof. exact C64_nan_candidate_forgets_2d_pf. Qed.
Print Assumptions C64_nan_candidate_forgets_2d.
Theorem C64_nan_candidate_forgets_3d : forall (A : arith) (v p0 n q : Point3 (num A)) (l1 l2 : list (Point3 (num A))), ~ NoNaN (api_distance v n) ->
  fold_left (api_closest v) (l1 ++ n :: q :: l2) p0 = fold_left (api_closest v) l2 q /\ fold_left (api_closest v) (l1 ++ [n]) p0 = n /\
  fold_left (api_farthest v) (l1 ++ n :: q :: l2) p0 = fold_left (api_farthest v) l2 q /\ fold_left (api_farthest v) (l1 ++ [n]) p0 = n.
Proof. exact C64_nan_candidate_forgets_3d_pf. Qed.
Print Assumptions C64_nan_candidate_forgets_3d.
(** the shortest and the longest of a list of vectors *)
Theorem C64_shortest_2d : forall (A : arith) (v0 : Vector2 (num A)) (l : list (Vector2 (num A))), (forall v, In v (v0 :: l) -> NoNaN (api_length v)) ->
  let c := fold_left api_shortest l v0 in let f := fold_left api_longest l v0 in
  (In c (v0 :: l) /\ forall v, In v (v0 :: l) -> Le (api_length c) (api_length v) /\ tr_is_shorter_than v c = false) /\
  (In f (v0 :: l) /\ forall v, In v (v0 :: l) -> Le (api_length v) (api_length f) /\ tr_is_longer_than v f = false).
Proof. exact C64_shortest_2d_pf. Qed.
Print Assumptions C64_shortest_2d.
Theorem C64_shortest_3d : forall (A : arith) (v0 : Vector3 (num A)) (l : list (Vector3 (num A))), (forall v, In v (v0 :: l) -> NoNaN (api_length v)) ->
  let c := fold_left api_shortest l v0 in let f := fold_left api_longest l v0 in
  (In c (v0 :: l) /\ forall v, In v (v0 :: l) -> Le (api_length c) (api_length v) /\ tr_is_shorter_than v c = false) /\
  (In f (v0 :: l) /\ forall v, In v (v0 :: l) -> Le (api_length v) (api_length f) /\ tr_is_longer_than v f = false).
Proof. exact C64_shortest_3d_pf. Qed.
Print Assumptions C64_shortest_3d.
(** the same for scalars *)
Theorem C64_nearest_scalar : forall (A : arith) (v p0 : num A) (l : list (num A)), (forall p, In p (p0 :: l) -> NoNaN (api_distance v p)) ->
  let c := fold_left (api_closest v) l p0 in let f := fold_left (api_farthest v) l p0 in
  (In c (p0 :: l) /\ forall p, In p (p0 :: l) -> Le (api_distance v c) (api_distance v p) /\ tr_is_closer_to v p c = false) /\
  (In f (p0 :: l) /\ forall p, In p (p0 :: l) -> Le (api_distance v p) (api_distance v f) /\ tr_is_farther_from v p f = false).
Proof. exact C64_nearest_scalar_pf. Qed.
Print Assumptions C64_nearest_scalar.
Theorem C64_shortest_scalar : forall (A : arith) (v0 : num A) (l : list (num A)), (forall v, In v (v0 :: l) -> NoNaN v) ->
  let c := fold_left api_shortest l v0 in let f := fold_left api_longest l v0 in
  (In c (v0 :: l) /\ forall v, In v (v0 :: l) -> Le (api_length c) (api_length v) /\ tr_is_shorter_than v c = false) /\
  (In f (v0 :: l) /\ forall v, In v (v0 :: l) -> Le (api_length v) (api_length f) /\ tr_is_longer_than v f = false).
Proof. exact C64_shortest_scalar_pf. Qed.
Print Assumptions C64_shortest_scalar.
(** * C65: folding min / max over any list of points: in each dimension the least / greatest coordinate that is not NaN *)
Theorem C65_min_max_of_points_2d : forall (A : arith) (p0 : Point2 (num A)) (l : list (Point2 (num A))) (d : Dimension2),
  let lo := coord2 (fold_left api_min l p0) d in let hi := coord2 (fold_left api_max l p0) d in
  ((forall p, In p (p0 :: l) -> ~ NoNaN (coord2 p d)) -> ~ NoNaN lo /\ ~ NoNaN hi) /\
  (forall p, In p (p0 :: l) -> NoNaN (coord2 p d) -> Le lo (coord2 p d) /\ Le (coord2 p d) hi) /\
  ((exists p, In p (p0 :: l) /\ NoNaN (coord2 p d)) -> (exists p, In p (p0 :: l) /\ Eqs lo (coord2 p d)) /\ (exists p, In p (p0 :: l) /\ Eqs hi (coord2 p d))).
Proof. exact C65_min_max_of_points_2d_pf. Qed.
Print Assumptions C65_min_max_of_points_2d.
Theorem C65_min_max_of_points_3d : forall (A : arith) (p0 : Point3 (num A)) (l : list (Point3 (num A))) (d : Dimension3),
  let lo := coord3 (fold_left api_min l p0) d in let hi := coord3 (fold_left api_max l p0) d in
  ((forall p, In p (p0 :: l) -> ~ NoNaN (coord3 p d)) -> ~ NoNaN lo /\ ~ NoNaN hi) /\
  (forall p, In p (p0 :: l) -> NoNaN (coord3 p d) -> Le lo (coord3 p d) /\ Le (coord3 p d) hi) /\
  ((exists p, In p (p0 :: l) /\ NoNaN (coord3 p d)) -> (exists p, In p (p0 :: l) /\ Eqs lo (coord3 p d)) /\ (exists p, In p (p0 :: l) /\ Eqs hi (coord3 p d))).
Proof. exact C65_min_max_of_points_3d_pf. Qed.
Print Assumptions C65_min_max_of_points_3d.
Theorem C65_min_max_of_vectors_2d : forall (A : arith) (p0 : Vector2 (num A)) (l : list (Vector2 (num A))) (d : Dimension2),
  let lo := vcoord2 (fold_left api_min l p0) d in let hi := vcoord2 (fold_left api_max l p0) d in
  ((forall p, In p (p0 :: l) -> ~ NoNaN (vcoord2 p d)) -> ~ NoNaN lo /\ ~ NoNaN hi) /\
  (forall p, In p (p0 :: l) -> NoNaN (vcoord2 p d) -> Le lo (vcoord2 p d) /\ Le (vcoord2 p d) hi) /\
  ((exists p, In p (p0 :: l) /\ NoNaN (vcoord2 p d)) -> (exists p, In p (p0 :: l) /\ Eqs lo (vcoord2 p d)) /\ (exists p, In p (p0 :: l) /\ Eqs hi (vcoord2 p d))).
Proof. exact C65_min_max_of_vectors_2d_pf. Qed.
Print Assumptions C65_min_max_of_vectors_2d.
Theorem C65_min_max_of_vectors_3d : forall (A : arith) (p0 : Vector3 (num A)) (l : list (Vector3 (num A))) (d : Dimension3),
  let lo := vcoord3 (fold_left api_min l p0) d in let hi := vcoord3 (fold_left api_max l p0) d in
  ((forall p, In p (p0 :: l) -> ~ NoNaN (vcoord3 p d)) -> ~ NoNaN lo /\ ~ NoNaN hi) /\
  (forall p, In p (p0 :: l) -> NoNaN (vcoord3 p d) -> Le lo (vcoord3 p d) /\ Le (vcoord3 p d) hi) /\
  ((exists p, In p (p0 :: l) /\ NoNaN (vcoord3 p d)) -> (exists p, In p (p0 :: l) /\ Eqs lo (vcoord3 p d)) /\ (exists p, In p (p0 :: l) /\ Eqs hi (vcoord3 p d))).
Proof. exact C65_min_max_of_vectors_3d_pf. Qed.
Print Assumptions C65_min_max_of_vectors_3d.
(** the same for scalars *)
Theorem C65_min_max_of_scalars : forall (A : arith) (x0 : num A) (l : list (num A)), let lo := fold_left api_min l x0 in let hi := fold_left api_max l x0 in
  ((forall x, In x (x0 :: l) -> ~ NoNaN x) -> ~ NoNaN lo /\ ~ NoNaN hi) /\
  (forall x, In x (x0 :: l) -> NoNaN x -> Le lo x /\ Le x hi) /\
  ((exists x, In x (x0 :: l) /\ NoNaN x) -> (exists x, In x (x0 :: l) /\ Eqs lo x) /\ (exists x, In x (x0 :: l) /\ Eqs hi x)).
Proof. exact C65_min_max_of_scalars_pf. Qed.
Print Assumptions C65_min_max_of_scalars.
(** the hypotheses are met: three candidates, the second is the nearest to the origin; a NaN candidate *)
Definition cand3 : list (Point3 (num A64)) := [ptA3; ptB3; mkPoint3 (d64 9 0) (d64 9 0) (d64 9 0)].
Definition org3 : Point3 (num A64) := mkPoint3 (d64 0 0) (d64 0 0) (d64 0 0).
Example C64_example_3d :
  (forall p, In p (ptB3 :: cand3) -> NoNaN (api_distance org3 p)) /\
  p3_eq (fold_left (api_closest org3) cand3 ptB3) ptA3 = true /\ ~ NoNaN (api_distance org3 ptN3).
Proof.
  split; [|split].
  - intros p [<-|[<-|[<-|[<-|[]]]]]; vm_compute; reflexivity.
  - vm_compute; reflexivity.
  - vm_compute. discriminate.
Qed.
Example C64_example_2d :
  (forall p, In p [ptA2; ptB2] -> NoNaN (api_distance (mkPoint2 (d64 0 0) (d64 0 0)) p)) /\
  (forall v, In v [v2_from ptA2; v2_from ptB2] -> NoNaN (api_length v)).
Proof. split; intros p [<-|[<-|[]]]; vm_compute; reflexivity. Qed.
Example C65_example_2d : let l := [ptB2; ptN2] in
  (exists p, In p (ptA2 :: l) /\ NoNaN (coord2 p D2X)) /\ ~ NoNaN (coord2 ptN2 D2X) /\
  Eqs (coord2 (fold_left api_min l ptA2) D2X) (nd64 5 0).
Proof. split; [exists ptA2; split; [now left | vm_compute; reflexivity]|]. vm_compute. split; [discriminate | reflexivity]. Qed.
