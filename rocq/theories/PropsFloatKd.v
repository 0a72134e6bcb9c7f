(** Theorems: C102 (cutting boxes by planes, walking a kd-tree along a ray).
    [A] ranges over f32 and f64 on every platform, and exact reals extended with infinities and NaN. *)
From Coq Require Import Bool NArith ZArith Reals List Permutation Lia.
From Verif Require Import Scalar Types Vector2 Vector3 Point2 Point3 Ray BoundingBox2 BoundingBox3 Float XReal Arith SpecOrder SpecFloat SpecClip SpecBvh SpecKd ExVals FloatKd.
Import ListNotations.
(** cutting an ordered box by an axis-aligned plane: the parameters at which the ray is in the box are exactly those at which it is in one of the two halves *)
Theorem C102_split_2d : forall (A : arith) (b : BoundingBox2 (num A)) (r : Ray2 (num A)) (d : Dimension2) (m : num A), Ordered2 b -> Finite2 (r2_origin r) -> VFinite2 (r2_direction r) -> NotGrazing2 b r ->
  Le (coord2 (bb2_min b) d) m -> Le m (coord2 (bb2_max b) d) -> OffPlane2 r d m ->
  forall t, HitAt2 b r t <-> HitAt2 (below2 b d m) r t \/ HitAt2 (above2 b d m) r t.
Proof. exact C102_split_2d_pf. Qed.
Print Assumptions C102_split_2d.
Theorem C102_split_3d : forall (A : arith) (b : BoundingBox3 (num A)) (r : Ray3 (num A)) (d : Dimension3) (m : num A), Ordered3 b -> Finite3 (r3_origin r) -> VFinite3 (r3_direction r) -> NotGrazing3 b r ->
  Le (coord3 (bb3_min b) d) m -> Le m (coord3 (bb3_max b) d) -> OffPlane3 r d m ->
  forall t, HitAt3 b r t <-> HitAt3 (below3 b d m) r t \/ HitAt3 (above3 b d m) r t.
Proof. exact C102_split_3d_pf. Qed.
Print Assumptions C102_split_3d.
(** the half on the side the ray comes from is passed first; a ray parallel to the plane is in one half only *)
Theorem C102_order_2d : forall (A : arith) (b : BoundingBox2 (num A)) (r : Ray2 (num A)) (d : Dimension2) (m : num A), Ordered2 b -> Finite2 (r2_origin r) -> VFinite2 (r2_direction r) -> NotGrazing2 b r ->
  Le (coord2 (bb2_min b) d) m -> Le m (coord2 (bb2_max b) d) -> OffPlane2 r d m ->
  (Lt szero (vcoord2 (r2_direction r) d) -> forall t t', HitAt2 (below2 b d m) r t -> HitAt2 (above2 b d m) r t' -> Le t t') /\
  (Lt (vcoord2 (r2_direction r) d) szero -> forall t t', HitAt2 (above2 b d m) r t -> HitAt2 (below2 b d m) r t' -> Le t t') /\
  (Eqs (vcoord2 (r2_direction r) d) szero -> forall t t', Finite t -> Finite t' -> ~ (HitAt2 (below2 b d m) r t /\ HitAt2 (above2 b d m) r t')).
Proof. exact C102_order_2d_pf. Qed.
Print Assumptions C102_order_2d.
Theorem C102_order_3d : forall (A : arith) (b : BoundingBox3 (num A)) (r : Ray3 (num A)) (d : Dimension3) (m : num A), Ordered3 b -> Finite3 (r3_origin r) -> VFinite3 (r3_direction r) -> NotGrazing3 b r ->
  Le (coord3 (bb3_min b) d) m -> Le m (coord3 (bb3_max b) d) -> OffPlane3 r d m ->
  (Lt szero (vcoord3 (r3_direction r) d) -> forall t t', HitAt3 (below3 b d m) r t -> HitAt3 (above3 b d m) r t' -> Le t t') /\
  (Lt (vcoord3 (r3_direction r) d) szero -> forall t t', HitAt3 (above3 b d m) r t -> HitAt3 (below3 b d m) r t' -> Le t t') /\
  (Eqs (vcoord3 (r3_direction r) d) szero -> forall t t', Finite t -> Finite t' -> ~ (HitAt3 (below3 b d m) r t /\ HitAt3 (above3 b d m) r t')).
Proof. exact C102_order_3d_pf. Qed.
Print Assumptions C102_order_3d.
(** a kd-tree of any shape: the walk visits exactly the cells that are hit, each once, although it skips boxes that are missed *)
Theorem C102_walk_complete_2d : forall (A : arith) (t : kd2 (num A)) (b : BoundingBox2 (num A)) (r : Ray2 (num A)), Ordered2 b -> Finite2 (r2_origin r) -> VFinite2 (r2_direction r) -> NotGrazing2 b r ->
  KdOk2 b t -> OffPlanes2 r t -> Permutation (walk2 r b t) (filter (hits2 r) (cells2 b t)).
Proof. exact C102_walk_complete_2d_pf. Qed.
Print Assumptions C102_walk_complete_2d.
Theorem C102_walk_complete_3d : forall (A : arith) (t : kd3 (num A)) (b : BoundingBox3 (num A)) (r : Ray3 (num A)), Ordered3 b -> Finite3 (r3_origin r) -> VFinite3 (r3_direction r) -> NotGrazing3 b r ->
  KdOk3 b t -> OffPlanes3 r t -> Permutation (walk3 r b t) (filter (hits3 r) (cells3 b t)).
Proof. exact C102_walk_complete_3d_pf. Qed.
Print Assumptions C102_walk_complete_3d.
(** the cells visited cover the ray's way through the box, without gaps *)
Theorem C102_walk_covers_2d : forall (A : arith) (t : kd2 (num A)) (b : BoundingBox2 (num A)) (r : Ray2 (num A)), Ordered2 b -> Finite2 (r2_origin r) -> VFinite2 (r2_direction r) -> NotGrazing2 b r ->
  KdOk2 b t -> OffPlanes2 r t -> forall x, HitAt2 b r x <-> exists c, In c (walk2 r b t) /\ HitAt2 c r x.
Proof. exact C102_walk_covers_2d_pf. Qed.
Print Assumptions C102_walk_covers_2d.
Theorem C102_walk_covers_3d : forall (A : arith) (t : kd3 (num A)) (b : BoundingBox3 (num A)) (r : Ray3 (num A)), Ordered3 b -> Finite3 (r3_origin r) -> VFinite3 (r3_direction r) -> NotGrazing3 b r ->
  KdOk3 b t -> OffPlanes3 r t -> forall x, HitAt3 b r x <-> exists c, In c (walk3 r b t) /\ HitAt3 c r x.
Proof. exact C102_walk_covers_3d_pf. Qed.
Print Assumptions C102_walk_covers_3d.
(** they are visited front to back *)
Theorem C102_walk_in_order_2d : forall (A : arith) (t : kd2 (num A)) (b : BoundingBox2 (num A)) (r : Ray2 (num A)), Ordered2 b -> Finite2 (r2_origin r) -> VFinite2 (r2_direction r) -> NotGrazing2 b r ->
  KdOk2 b t -> OffPlanes2 r t -> ForallOrdPairs (Before2 r) (walk2 r b t).
Proof. exact C102_walk_in_order_2d_pf. Qed.
Print Assumptions C102_walk_in_order_2d.
Theorem C102_walk_in_order_3d : forall (A : arith) (t : kd3 (num A)) (b : BoundingBox3 (num A)) (r : Ray3 (num A)), Ordered3 b -> Finite3 (r3_origin r) -> VFinite3 (r3_direction r) -> NotGrazing3 b r ->
  KdOk3 b t -> OffPlanes3 r t -> ForallOrdPairs (Before3 r) (walk3 r b t).
Proof. exact C102_walk_in_order_3d_pf. Qed.
Print Assumptions C102_walk_in_order_3d.
(** a ray that runs in the cutting plane, through the middle of the box, is in neither half *)
Theorem C102_ray_in_the_cut_is_lost : let b := mkBB2 (mkPoint2 (d64 0 0) (d64 0 0)) (mkPoint2 (d64 2 0) (d64 2 0)) in
  let r := mkRay2 (mkPoint2 (d64 1 0) (nd64 1 0)) (mkVector2 (d64 0 0) (d64 1 0)) in
  Ordered2 b /\ Finite2 (r2_origin r) /\ VFinite2 (r2_direction r) /\ NotGrazing2 b r /\ hits2 r b = true /\ hits2 r (below2 b D2X (d64 1 0)) = false /\ hits2 r (above2 b D2X (d64 1 0)) = false.
Proof. exact C102_ray_in_the_cut_is_lost_pf. Qed.
Print Assumptions C102_ray_in_the_cut_is_lost.
(** for a ray parallel to the cut the order of infinite parameters is not kept (so [Before] is about finite ones): beside the lower half, direction -0 *)
Theorem C102_infinite_parameters_out_of_order : let b := mkBB2 (mkPoint2 (d64 0 0) (d64 0 0)) (mkPoint2 (d64 4 0) (d64 4 0)) in
  let r := mkRay2 (mkPoint2 (d64 3 0) (d64 1 0)) (mkVector2 (sneg (d64 0 0)) (d64 0 0)) in
  Ordered2 b /\ Finite2 (r2_origin r) /\ VFinite2 (r2_direction r) /\ NotGrazing2 b r /\ HitAt2 (below2 b D2X (d64 2 0)) r sinf /\ HitAt2 (above2 b D2X (d64 2 0)) r (d64 0 0).
Proof. exact C102_infinite_parameters_out_of_order_pf. Qed.
Print Assumptions C102_infinite_parameters_out_of_order.
(* the hypotheses are met: a box with three cuts, a ray that visits three of the four cells, from right to left *)
Example C102_example : let r := mkRay3 (mkPoint3 (d64 9 0) (d64 1 0) (d64 1 0)) (mkVector3 (nd64 1 0) (d64 1 (-2)) (d64 0 0)) : Ray3 (num A64) in
  let b := mkBB3 (mkPoint3 (d64 0 0) (d64 0 0) (d64 0 0)) (mkPoint3 (d64 8 0) (d64 4 0) (d64 4 0)) in
  let t := Split3 D3X (d64 4 0) (Split3 D3Y (d64 3 0) Cell3 Cell3) (Split3 D3Z (d64 2 0) Cell3 Cell3) in
  Ordered3 b /\ Finite3 (r3_origin r) /\ VFinite3 (r3_direction r) /\ NotGrazing3 b r /\ KdOk3 b t /\ OffPlanes3 r t /\ length (walk3 r b t) = 3 /\ length (cells3 b t) = 4.
Proof.
  cbv zeta. split; [intros []; vm_compute; reflexivity|]. split; [intros []; vm_compute; reflexivity|]. split; [intros []; vm_compute; reflexivity|].
  split; [intros [] K; vm_compute in K; try discriminate K; split; vm_compute; discriminate|].
  split; [cbn [KdOk3]; repeat match goal with |- _ /\ _ => split | |- True => exact I end; vm_compute; reflexivity|].
  split; [|split; vm_compute; reflexivity].
  cbn [OffPlanes3]. repeat match goal with |- _ /\ _ => split | |- True => exact I end; intros K; vm_compute in K; try discriminate K; vm_compute; discriminate.
Qed.
