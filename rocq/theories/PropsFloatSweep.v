(** Theorems: C111 (moving boxes).
    [A] ranges over f32 and f64 on every platform, and exact reals extended with infinities and NaN. *)
From Coq Require Import Bool NArith ZArith Reals List Lra Lia.
From Verif Require Import Scalar Types Vector2 Vector3 Point2 Point3 Ray BoundingBox2 BoundingBox3 Float XReal Arith SpecOrder SpecStruct SpecFloat SpecErr SpecReal SpecBox SpecSweep ExVals FloatSweep.
Local Open Scope R_scope.
(** a moving box is ordered and contains its moving points, computed with ray.at *)
Theorem C111_moved_points_2d : forall (A : arith) (b : BoundingBox2 (num A)) (v : Vector2 (num A)) (t : num A) (p : Point2 (num A)), Ordered2 b -> BFinite2 b -> VFinite2 v -> Finite t ->
  Ordered2 (moved2 b v t) /\ (bb2_is_inside b p = true -> bb2_is_inside (moved2 b v t) (r2_at (r2_new p v) t) = true).
Proof. exact C111_moved_points_2d_pf. Qed.
Print Assumptions C111_moved_points_2d.
Theorem C111_moved_points_3d : forall (A : arith) (b : BoundingBox3 (num A)) (v : Vector3 (num A)) (t : num A) (p : Point3 (num A)), Ordered3 b -> BFinite3 b -> VFinite3 v -> Finite t ->
  Ordered3 (moved3 b v t) /\ (bb3_is_inside b p = true -> bb3_is_inside (moved3 b v t) (r3_at (r3_new p v) t) = true).
Proof. exact C111_moved_points_3d_pf. Qed.
Print Assumptions C111_moved_points_3d.
(** the box around the motion contains the moving box at every time in between *)
Theorem C111_swept_contains_moved_2d : forall (A : arith) (b : BoundingBox2 (num A)) (v : Vector2 (num A)) (s u t : num A), Ordered2 b -> BFinite2 b -> VFinite2 v -> Finite s -> Finite u -> Finite t -> Le s u -> Le u t ->
  Ordered2 (swept2 b v s t) /\ Incl2 (moved2 b v u) (swept2 b v s t).
Proof. exact C111_swept_contains_moved_2d_pf. Qed.
Print Assumptions C111_swept_contains_moved_2d.
Theorem C111_swept_contains_moved_3d : forall (A : arith) (b : BoundingBox3 (num A)) (v : Vector3 (num A)) (s u t : num A), Ordered3 b -> BFinite3 b -> VFinite3 v -> Finite s -> Finite u -> Finite t -> Le s u -> Le u t ->
  Ordered3 (swept3 b v s t) /\ Incl3 (moved3 b v u) (swept3 b v s t).
Proof. exact C111_swept_contains_moved_3d_pf. Qed.
Print Assumptions C111_swept_contains_moved_3d.
(** so the path of every point of the box stays inside it, and whatever the box meets on the way overlaps it *)
Theorem C111_swept_is_conservative_2d : forall (A : arith) (b c : BoundingBox2 (num A)) (v : Vector2 (num A)) (s u t : num A) (p : Point2 (num A)), Ordered2 b -> BFinite2 b -> VFinite2 v -> Finite s -> Finite u -> Finite t -> Le s u -> Le u t ->
  (bb2_is_inside b p = true -> bb2_is_inside (swept2 b v s t) (r2_at (r2_new p v) u) = true) /\
  (Ordered2 c -> bb2_overlaps (moved2 b v u) c = true -> bb2_overlaps (swept2 b v s t) c = true).
Proof. exact C111_swept_is_conservative_2d_pf. Qed.
Print Assumptions C111_swept_is_conservative_2d.
Theorem C111_swept_is_conservative_3d : forall (A : arith) (b c : BoundingBox3 (num A)) (v : Vector3 (num A)) (s u t : num A) (p : Point3 (num A)), Ordered3 b -> BFinite3 b -> VFinite3 v -> Finite s -> Finite u -> Finite t -> Le s u -> Le u t ->
  (bb3_is_inside b p = true -> bb3_is_inside (swept3 b v s t) (r3_at (r3_new p v) u) = true) /\
  (Ordered3 c -> bb3_overlaps (moved3 b v u) c = true -> bb3_overlaps (swept3 b v s t) c = true).
Proof. exact C111_swept_is_conservative_3d_pf. Qed.
Print Assumptions C111_swept_is_conservative_3d.
(** it is the smallest box that contains the box at both ends *)
Theorem C111_swept_is_smallest_2d : forall (A : arith) (b c : BoundingBox2 (num A)) (v : Vector2 (num A)) (s t : num A), Ordered2 b -> BFinite2 b -> VFinite2 v -> Finite s -> Finite t ->
  Incl2 (moved2 b v s) c -> Incl2 (moved2 b v t) c -> Incl2 (swept2 b v s t) c.
Proof. exact C111_swept_is_smallest_2d_pf. Qed.
Print Assumptions C111_swept_is_smallest_2d.
Theorem C111_swept_is_smallest_3d : forall (A : arith) (b c : BoundingBox3 (num A)) (v : Vector3 (num A)) (s t : num A), Ordered3 b -> BFinite3 b -> VFinite3 v -> Finite s -> Finite t ->
  Incl3 (moved3 b v s) c -> Incl3 (moved3 b v t) c -> Incl3 (swept3 b v s t) c.
Proof. exact C111_swept_is_smallest_3d_pf. Qed.
Print Assumptions C111_swept_is_smallest_3d.
(** exact arithmetic: the moving box meets c at time t exactly if the moving point 0 + v*t is inside the grown box (a point against a bigger box) *)
Theorem C111_grown_exact_2d : forall (b c : BoundingBox2 R) (v : Vector2 R) (t : R), Rordered2 b -> Rordered2 c ->
  bb2_overlaps (moved2 (XB2 b) (XV2 v) (Fin t)) (XB2 c) = bb2_is_inside (grown2 (XB2 c) (XB2 b)) (r2_at (XR2 (mkRay2 (mkPoint2 0 0) v)) (Fin t)).
Proof. exact C111_grown_exact_2d_pf. Qed.
Print Assumptions C111_grown_exact_2d.
Theorem C111_grown_exact_3d : forall (b c : BoundingBox3 R) (v : Vector3 R) (t : R), Rordered3 b -> Rordered3 c ->
  bb3_overlaps (moved3 (XB3 b) (XV3 v) (Fin t)) (XB3 c) = bb3_is_inside (grown3 (XB3 c) (XB3 b)) (r3_at (XR3 (mkRay3 (mkPoint3 0 0 0) v)) (Fin t)).
Proof. exact C111_grown_exact_3d_pf. Qed.
Print Assumptions C111_grown_exact_3d.
(** so intersect_ray with the grown box gives the first and the last time of contact *)
Theorem C111_time_of_impact_exact_2d : forall (b c : BoundingBox2 R) (v : Vector2 R), Rordered2 b -> Rordered2 c -> v <> Rzero2 -> off_faces2 (Rgrown2 c b) (mkRay2 (mkPoint2 0 0) v) ->
  match bb2_intersect_ray (grown2 (XB2 c) (XB2 b)) (XR2 (mkRay2 (mkPoint2 0 0) v)) with
  | None => forall t : R, 0 <= t -> bb2_overlaps (moved2 (XB2 b) (XV2 v) (Fin t)) (XB2 c) = false
  | Some (s, e) => exists s' e' : R, s = Fin s' /\ e = Fin e' /\ 0 <= s' <= e' /\
      forall t : R, 0 <= t -> (bb2_overlaps (moved2 (XB2 b) (XV2 v) (Fin t)) (XB2 c) = true <-> s' <= t <= e')
  end.
Proof. exact C111_time_of_impact_exact_2d_pf. Qed.
Print Assumptions C111_time_of_impact_exact_2d.
Theorem C111_time_of_impact_exact_3d : forall (b c : BoundingBox3 R) (v : Vector3 R), Rordered3 b -> Rordered3 c -> v <> Rzero3 -> off_faces3 (Rgrown3 c b) (mkRay3 (mkPoint3 0 0 0) v) ->
  match bb3_intersect_ray (grown3 (XB3 c) (XB3 b)) (XR3 (mkRay3 (mkPoint3 0 0 0) v)) with
  | None => forall t : R, 0 <= t -> bb3_overlaps (moved3 (XB3 b) (XV3 v) (Fin t)) (XB3 c) = false
  | Some (s, e) => exists s' e' : R, s = Fin s' /\ e = Fin e' /\ 0 <= s' <= e' /\
      forall t : R, 0 <= t -> (bb3_overlaps (moved3 (XB3 b) (XV3 v) (Fin t)) (XB3 c) = true <-> s' <= t <= e')
  end.
Proof. exact C111_time_of_impact_exact_3d_pf. Qed.
Print Assumptions C111_time_of_impact_exact_3d.
(* in floating point the two tests can disagree: the moved box overlaps c, the moved point is outside the grown box *)
Theorem C111_grown_float_disagrees : let b := mkBB2 (mkPoint2 (d64 1 0) (d64 0 0)) (mkPoint2 (d64 2 0) (d64 1 0)) : BoundingBox2 (num A64) in let c := mkBB2 (mkPoint2 (d64 0 0) (d64 0 0)) (mkPoint2 (d64 1 0) (d64 1 0)) : BoundingBox2 (num A64) in
  let v := mkVector2 (d64 1 (-60)) (d64 0 0) in let t := d64 1 0 in
  Ordered2 b /\ Ordered2 c /\ bb2_overlaps (moved2 b v t) c = true /\ bb2_is_inside (grown2 c b) (r2_at (mkRay2 (mkPoint2 (d64 0 0) (d64 0 0)) v) t) = false.
Proof. cbv zeta. repeat match goal with |- _ /\ _ => split end; try (intros []; vm_compute; reflexivity); vm_compute; reflexivity. Qed.
Print Assumptions C111_grown_float_disagrees.
(* the hypotheses are met: a box that flies into a wall *)
Example C111_example : let b := mkBB2 (mkPoint2 (d64 0 0) (d64 0 0)) (mkPoint2 (d64 1 0) (d64 1 0)) : BoundingBox2 (num A64) in let c := mkBB2 (mkPoint2 (d64 3 0) (nd64 1 0)) (mkPoint2 (d64 4 0) (d64 9 0)) : BoundingBox2 (num A64) in let v := mkVector2 (d64 1 0) (nd64 1 (-2)) in
  Ordered2 b /\ BFinite2 b /\ Ordered2 c /\ VFinite2 v /\ bb2_overlaps (moved2 b v (d64 2 0)) c = true /\ bb2_overlaps (moved2 b v (d64 1 0)) c = false /\ bb2_overlaps (swept2 b v (d64 0 0) (d64 9 0)) c = true.
Proof. cbv zeta. repeat match goal with |- _ /\ _ => split end; try (intros []; vm_compute; reflexivity); try (split; intros []; vm_compute; reflexivity); vm_compute; reflexivity. Qed.
Example C111_impact_example : let b := mkBB2 (mkPoint2 0 0) (mkPoint2 1 1) in let c := mkBB2 (mkPoint2 3 0) (mkPoint2 4 1) in let v := mkVector2 1 0 in
  Rordered2 b /\ Rordered2 c /\ v <> Rzero2 /\ off_faces2 (Rgrown2 c b) (mkRay2 (mkPoint2 0 0) v).
Proof.
  cbv zeta. split; [unfold Rordered2; cbn; lra|]. split; [unfold Rordered2; cbn; lra|]. split; [intros E; injection E; lra|]. unfold off_faces2, off_plane, Rgrown2; cbn; lra.
Qed.
