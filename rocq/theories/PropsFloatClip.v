(** Theorems: C92 (clipping a ray by two boxes).
    [A] ranges over f32 and f64 on every platform, and exact reals extended with infinities and NaN. *)
From Coq Require Import Bool NArith ZArith Reals List Lia.
From Verif Require Import Scalar Types Vector2 Vector3 Point2 Point3 Ray BoundingBox2 BoundingBox3 Float XReal Arith SpecOrder SpecFloat SpecClip ExVals FloatClip.
Import ListNotations.
(** for boxes that overlap: the parameters at which the ray is in the intersection are exactly those at which it is in both boxes *)
Theorem C92_clip_2d : forall (A : arith) (a b c : BoundingBox2 (num A)) (r : Ray2 (num A)), Ordered2 a -> Ordered2 b -> Finite2 (r2_origin r) -> VFinite2 (r2_direction r) -> NotGrazing2 a r -> NotGrazing2 b r ->
  bb2_intersect a b = Some c -> forall t, HitAt2 c r t <-> HitAt2 a r t /\ HitAt2 b r t.
Proof. exact C92_clip_2d_pf. Qed.
Print Assumptions C92_clip_2d.
Theorem C92_clip_3d : forall (A : arith) (a b c : BoundingBox3 (num A)) (r : Ray3 (num A)), Ordered3 a -> Ordered3 b -> Finite3 (r3_origin r) -> VFinite3 (r3_direction r) -> NotGrazing3 a r -> NotGrazing3 b r ->
  bb3_intersect a b = Some c -> forall t, HitAt3 c r t <-> HitAt3 a r t /\ HitAt3 b r t.
Proof. exact C92_clip_3d_pf. Qed.
Print Assumptions C92_clip_3d.
(** for boxes that do not overlap: at most one common parameter (a rounding artefact: none in exact arithmetic) *)
Theorem C92_disjoint_boxes_2d : forall (A : arith) (a b : BoundingBox2 (num A)) (r : Ray2 (num A)), Ordered2 a -> Ordered2 b -> Finite2 (r2_origin r) -> VFinite2 (r2_direction r) -> NotGrazing2 a r -> NotGrazing2 b r ->
  bb2_intersect a b = None -> forall t t', HitAt2 a r t -> HitAt2 b r t -> HitAt2 a r t' -> HitAt2 b r t' -> Eqs t t'.
Proof. exact C92_disjoint_boxes_2d_pf. Qed.
Print Assumptions C92_disjoint_boxes_2d.
Theorem C92_disjoint_boxes_3d : forall (A : arith) (a b : BoundingBox3 (num A)) (r : Ray3 (num A)), Ordered3 a -> Ordered3 b -> Finite3 (r3_origin r) -> VFinite3 (r3_direction r) -> NotGrazing3 a r -> NotGrazing3 b r ->
  bb3_intersect a b = None -> forall t t', HitAt3 a r t -> HitAt3 b r t -> HitAt3 a r t' -> HitAt3 b r t' -> Eqs t t'.
Proof. exact C92_disjoint_boxes_3d_pf. Qed.
Print Assumptions C92_disjoint_boxes_3d.
(** in exact arithmetic disjoint boxes have no finite parameter in common *)
Theorem C92_disjoint_boxes_exact_2d : forall (a b : BoundingBox2 (num EXACT)) (r : Ray2 (num EXACT)), Ordered2 a -> Ordered2 b -> Finite2 (r2_origin r) -> VFinite2 (r2_direction r) -> NotGrazing2 a r -> NotGrazing2 b r ->
  bb2_intersect a b = None -> forall t, Finite t -> ~ (HitAt2 a r t /\ HitAt2 b r t).
Proof. exact C92_disjoint_boxes_exact_2d_pf. Qed.
Print Assumptions C92_disjoint_boxes_exact_2d.
Theorem C92_disjoint_boxes_exact_3d : forall (a b : BoundingBox3 (num EXACT)) (r : Ray3 (num EXACT)), Ordered3 a -> Ordered3 b -> Finite3 (r3_origin r) -> VFinite3 (r3_direction r) -> NotGrazing3 a r -> NotGrazing3 b r ->
  bb3_intersect a b = None -> forall t, Finite t -> ~ (HitAt3 a r t /\ HitAt3 b r t).
Proof. exact C92_disjoint_boxes_exact_3d_pf. Qed.
Print Assumptions C92_disjoint_boxes_exact_3d.
(** rounding can make boxes that do not overlap meet in one parameter: [0, 1] and [1 + 2^-52, 2] seen from -1 *)
Theorem C92_disjoint_boxes_can_share_a_parameter : let a := mkBB2 (mkPoint2 (d64 0 0) (d64 0 0)) (mkPoint2 (d64 1 0) (d64 1 0)) in let b := mkBB2 (mkPoint2 (d64 4503599627370497 (-52)) (d64 0 0)) (mkPoint2 (d64 2 0) (d64 1 0)) in
  let r := mkRay2 (mkPoint2 (nd64 1 0) (d64 1 (-1))) (mkVector2 (d64 1 0) (d64 0 0)) in
  bb2_intersect a b = None /\ HitAt2 a r (d64 2 0) /\ HitAt2 b r (d64 2 0) /\ Ordered2 a /\ Ordered2 b /\ NotGrazing2 a r /\ NotGrazing2 b r.
Proof. exact C92_disjoint_boxes_can_share_a_parameter_pf. Qed.
Print Assumptions C92_disjoint_boxes_can_share_a_parameter.
(* the hypotheses are met: two overlapping boxes, an oblique ray with one zero direction component, in the intersection at t = 2 and not at t = 4 *)
Example C92_example : let r := mkRay3 (mkPoint3 (nd64 1 0) (d64 0 0) (d64 1 (-1))) (mkVector3 (d64 1 0) (d64 1 (-1)) (d64 0 0)) : Ray3 (num A64) in
  let a := mkBB3 (mkPoint3 (d64 0 0) (d64 0 0) (d64 0 0)) (mkPoint3 (d64 2 0) (d64 2 0) (d64 1 0)) : BoundingBox3 (num A64) in
  let b := mkBB3 (mkPoint3 (d64 1 0) (d64 0 0) (d64 0 0)) (mkPoint3 (d64 5 0) (d64 5 0) (d64 1 0)) : BoundingBox3 (num A64) in
  Ordered3 a /\ Ordered3 b /\ Finite3 (r3_origin r) /\ VFinite3 (r3_direction r) /\ NotGrazing3 a r /\ NotGrazing3 b r /\
  is_some (bb3_intersect a b) = true /\ HitAt3 a r (d64 2 0) /\ HitAt3 b r (d64 2 0) /\ ~ HitAt3 a r (d64 4 0) /\ HitAt3 b r (d64 4 0).
Proof.
  cbv zeta. assert (H : forall (b : BoundingBox3 (num A64)) (r : Ray3 (num A64)) t, match bb3_intersect_ray b r with Some (s, e) => sle s t && sle t e | None => false end = true <-> HitAt3 b r t).
  { intros b r t. unfold HitAt3. destruct (bb3_intersect_ray b r) as [[s e]|]; split.
    - intros K. apply andb_true_iff in K. exists s, e. now split.
    - intros (s' & e' & K & K1 & K2). injection K as <- <-. now apply andb_true_iff.
    - discriminate.
    - intros (s' & e' & K & _). discriminate. }
  repeat match goal with |- _ /\ _ => split end; try (intros []; vm_compute; reflexivity); try (apply H; vm_compute; reflexivity); try (intros [] K; vm_compute in K; try discriminate K; split; vm_compute; discriminate).
  - vm_compute. reflexivity.
  - rewrite <- H. vm_compute. discriminate.
Qed.
