(** Theorems: C107 (dividing a box at a point, quadtrees and octrees).
    [A] ranges over f32 and f64 on every platform, and exact reals extended with infinities and NaN. *)
From Coq Require Import Bool NArith ZArith Reals List Lia.
From Verif Require Import Scalar Types Vector2 Vector3 Point2 Point3 Ray BoundingBox2 BoundingBox3 Float XReal Arith SpecOrder SpecFloat SpecReal SpecBox SpecClip SpecKd SpecHull SpecOct ExVals FloatOct.
Import ListNotations.
Local Open Scope R_scope.
(** dividing at any point inside the box: a point is in the box exactly if it is in one of the sub-boxes, and the three (two) comparisons of its coordinates find one *)
Theorem C107_cover_2d : forall (A : arith) (prof : profile) (b : BoundingBox2 (num A)) (m p : Point2 (num A)), bb2_is_inside b m = true ->
  (bb2_is_inside b p = true <-> exists c, In c (children2 prof b m) /\ bb2_is_inside c p = true) /\
  (bb2_is_inside b p = true -> exists c, bb2_corner prof b (octant2 m p) = Ret c /\ bb2_is_inside (bb2_new c m) p = true).
Proof. exact C107_cover_2d_pf. Qed.
Print Assumptions C107_cover_2d.
Theorem C107_cover_3d : forall (A : arith) (prof : profile) (b : BoundingBox3 (num A)) (m p : Point3 (num A)), bb3_is_inside b m = true ->
  (bb3_is_inside b p = true <-> exists c, In c (children3 prof b m) /\ bb3_is_inside c p = true) /\
  (bb3_is_inside b p = true -> exists c, bb3_corner prof b (octant3 m p) = Ret c /\ bb3_is_inside (bb3_new c m) p = true).
Proof. exact C107_cover_3d_pf. Qed.
Print Assumptions C107_cover_3d.
(** two different sub-boxes share only points on the planes through m *)
Theorem C107_share_only_cuts_2d : forall (A : arith) (prof : profile) (b : BoundingBox2 (num A)) (m p : Point2 (num A)) (i j : N) (ci cj : Point2 (num A)), bb2_is_inside b m = true -> (i < 2 ^ 2)%N -> (j < 2 ^ 2)%N -> i <> j ->
  bb2_corner prof b i = Ret ci -> bb2_corner prof b j = Ret cj -> bb2_is_inside (bb2_new ci m) p = true -> bb2_is_inside (bb2_new cj m) p = true -> exists d, Eqs (coord2 p d) (coord2 m d).
Proof. exact C107_share_only_cuts_2d_pf. Qed.
Print Assumptions C107_share_only_cuts_2d.
Theorem C107_share_only_cuts_3d : forall (A : arith) (prof : profile) (b : BoundingBox3 (num A)) (m p : Point3 (num A)) (i j : N) (ci cj : Point3 (num A)), bb3_is_inside b m = true -> (i < 2 ^ 3)%N -> (j < 2 ^ 3)%N -> i <> j ->
  bb3_corner prof b i = Ret ci -> bb3_corner prof b j = Ret cj -> bb3_is_inside (bb3_new ci m) p = true -> bb3_is_inside (bb3_new cj m) p = true -> exists d, Eqs (coord3 p d) (coord3 m d).
Proof. exact C107_share_only_cuts_3d_pf. Qed.
Print Assumptions C107_share_only_cuts_3d.
(** the union of two opposite sub-boxes is the whole box again *)
Theorem C107_opposite_union_2d : forall (A : arith) (prof : profile) (b : BoundingBox2 (num A)) (m : Point2 (num A)) (i : N) (c c' : Point2 (num A)), bb2_is_inside b m = true -> (i < 2 ^ 2)%N ->
  bb2_corner prof b i = Ret c -> bb2_corner prof b (2 ^ 2 - 1 - i) = Ret c' -> BEq2 (bb2_union (bb2_new c m) (bb2_new c' m)) b.
Proof. exact C107_opposite_union_2d_pf. Qed.
Print Assumptions C107_opposite_union_2d.
Theorem C107_opposite_union_3d : forall (A : arith) (prof : profile) (b : BoundingBox3 (num A)) (m : Point3 (num A)) (i : N) (c c' : Point3 (num A)), bb3_is_inside b m = true -> (i < 2 ^ 3)%N ->
  bb3_corner prof b i = Ret c -> bb3_corner prof b (2 ^ 3 - 1 - i) = Ret c' -> BEq3 (bb3_union (bb3_new c m) (bb3_new c' m)) b.
Proof. exact C107_opposite_union_3d_pf. Qed.
Print Assumptions C107_opposite_union_3d.
(** along a ray: the parameters in the box are exactly those in the sub-boxes *)
Theorem C107_ray_2d : forall (A : arith) (prof : profile) (b : BoundingBox2 (num A)) (m : Point2 (num A)) (r : Ray2 (num A)), bb2_is_inside b m = true -> Finite2 (r2_origin r) -> VFinite2 (r2_direction r) -> NotGrazing2 b r -> (forall d, OffPlane2 r d (coord2 m d)) ->
  forall t, HitAt2 b r t <-> exists c, In c (children2 prof b m) /\ HitAt2 c r t.
Proof. exact C107_ray_2d_pf. Qed.
Print Assumptions C107_ray_2d.
Theorem C107_ray_3d : forall (A : arith) (prof : profile) (b : BoundingBox3 (num A)) (m : Point3 (num A)) (r : Ray3 (num A)), bb3_is_inside b m = true -> Finite3 (r3_origin r) -> VFinite3 (r3_direction r) -> NotGrazing3 b r -> (forall d, OffPlane3 r d (coord3 m d)) ->
  forall t, HitAt3 b r t <-> exists c, In c (children3 prof b m) /\ HitAt3 c r t.
Proof. exact C107_ray_3d_pf. Qed.
Print Assumptions C107_ray_3d.
(** recursively, at the centers: n levels down the cell found for p still contains p, lies in the box, and can be divided further *)
Theorem C107_locate_2d : forall (A : arith) (prof : profile) (n : nat) (b : BoundingBox2 (num A)) (p : Point2 (num A)), Ordered2 b -> BFinite2 b -> (forall d, Finite (bb2_extent b d)) -> bb2_is_inside b p = true ->
  let c := locate2 prof n b p in bb2_is_inside c p = true /\ Incl2 c b /\ Ordered2 c /\ BFinite2 c /\ (forall d, Finite (bb2_extent c d)) /\ bb2_is_inside c (bb2_center c) = true.
Proof. exact C107_locate_2d_pf. Qed.
Print Assumptions C107_locate_2d.
Theorem C107_locate_3d : forall (A : arith) (prof : profile) (n : nat) (b : BoundingBox3 (num A)) (p : Point3 (num A)), Ordered3 b -> BFinite3 b -> (forall d, Finite (bb3_extent b d)) -> bb3_is_inside b p = true ->
  let c := locate3 prof n b p in bb3_is_inside c p = true /\ Incl3 c b /\ Ordered3 c /\ BFinite3 c /\ (forall d, Finite (bb3_extent c d)) /\ bb3_is_inside c (bb3_center c) = true.
Proof. exact C107_locate_3d_pf. Qed.
Print Assumptions C107_locate_3d.
(** in exact arithmetic the areas (volumes) of the sub-boxes add up to that of the box, and every level halves the extents *)
Theorem C107_areas_add_2d : forall (prof : profile) (b : BoundingBox2 R) (m : Point2 R), bb2_is_inside (XB2 b) (XP2 m) = true ->
  fold_right sadd szero (map bb2_area (children2 prof (XB2 b) (XP2 m))) = bb2_area (XB2 b).
Proof. exact C107_areas_add_2d_pf. Qed.
Print Assumptions C107_areas_add_2d.
Theorem C107_volumes_add_3d : forall (prof : profile) (b : BoundingBox3 R) (m : Point3 R), bb3_is_inside (XB3 b) (XP3 m) = true ->
  fold_right sadd szero (map bb3_volume (children3 prof (XB3 b) (XP3 m))) = bb3_volume (XB3 b).
Proof. exact C107_volumes_add_3d_pf. Qed.
Print Assumptions C107_volumes_add_3d.
Theorem C107_halving_2d : forall (prof : profile) (n : nat) (b : BoundingBox2 R) (p : Point2 R) (d : Dimension2), Rordered2 b ->
  bb2_extent (locate2 prof n (XB2 b) (XP2 p)) d = Fin ((coord2 (bb2_max b) d - coord2 (bb2_min b) d) / 2 ^ n).
Proof. exact C107_halving_2d_pf. Qed.
Print Assumptions C107_halving_2d.
Theorem C107_halving_3d : forall (prof : profile) (n : nat) (b : BoundingBox3 R) (p : Point3 R) (d : Dimension3), Rordered3 b ->
  bb3_extent (locate3 prof n (XB3 b) (XP3 p)) d = Fin ((coord3 (bb3_max b) d - coord3 (bb3_min b) d) / 2 ^ n).
Proof. exact C107_halving_3d_pf. Qed.
Print Assumptions C107_halving_3d.
(* a ray along an axis through the center runs in a cutting plane: it hits the box and none of the sub-boxes, so the last hypothesis of C107_ray is needed *)
Theorem C107_axis_ray_through_center_lost : forall prof : profile,
  let b := mkBB2 (mkPoint2 (d64 0 0) (d64 0 0)) (mkPoint2 (d64 4 0) (d64 8 0)) : BoundingBox2 (num A64) in let r := mkRay2 (mkPoint2 (d64 2 0) (nd64 1 0)) (mkVector2 (d64 0 0) (d64 1 0)) : Ray2 (num A64) in
  let hit c := match bb2_intersect_ray c r with Some _ => true | None => false end in
  bb2_is_inside b (bb2_center b) = true /\ Finite2 (r2_origin r) /\ VFinite2 (r2_direction r) /\ NotGrazing2 b r /\ hit b = true /\ existsb hit (children2 prof b (bb2_center b)) = false.
Proof.
  intros [[] []]; cbv zeta; (repeat match goal with |- _ /\ _ => split end; [vm_compute; reflexivity | intros []; vm_compute; reflexivity | intros []; vm_compute; reflexivity | | vm_compute; reflexivity | vm_compute; reflexivity]); intros []; vm_compute; split; congruence.
Qed.
Print Assumptions C107_axis_ray_through_center_lost.
(* the hypotheses are met *)
Example C107_example : let b := mkBB3 (mkPoint3 (d64 0 0) (nd64 2 0) (d64 0 0)) (mkPoint3 (d64 4 0) (d64 2 0) (d64 1 0)) : BoundingBox3 (num A64) in let p := mkPoint3 (d64 3 0) (nd64 1 0) (d64 1 (-2)) : Point3 (num A64) in
  let r := mkRay3 (mkPoint3 (nd64 1 0) (nd64 1 0) (d64 1 (-2))) (mkVector3 (d64 1 0) (d64 0 0) (d64 1 (-4))) : Ray3 (num A64) in
  Ordered3 b /\ BFinite3 b /\ (forall d, Finite (bb3_extent b d)) /\ bb3_is_inside b p = true /\ bb3_is_inside b (bb3_center b) = true /\ octant3 (bb3_center b) p = 1%N /\
  Finite3 (r3_origin r) /\ VFinite3 (r3_direction r) /\ NotGrazing3 b r /\ (forall d, OffPlane3 r d (coord3 (bb3_center b) d)) /\
  (forall prof, Eqs (bb3_extent (locate3 prof 2 b p) D3X) (d64 1 0)) /\ match bb3_intersect_ray b r with Some _ => True | None => False end.
Proof.
  cbv zeta. split; [intros []; vm_compute; reflexivity|]. split; [split; intros []; vm_compute; reflexivity|]. split; [intros []; vm_compute; reflexivity|]. split; [vm_compute; reflexivity|]. split; [vm_compute; reflexivity|]. split; [vm_compute; reflexivity|].
  split; [intros []; vm_compute; reflexivity|]. split; [intros []; vm_compute; reflexivity|]. split; [intros []; vm_compute; first [split; congruence | congruence]|]. split; [intros []; vm_compute; first [congruence | split; congruence]|].
  split; [intros [[] []]; vm_compute; reflexivity|]. vm_compute. exact I.
Qed.
