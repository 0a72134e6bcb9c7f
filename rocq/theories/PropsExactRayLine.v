(** Theorems: C95 (restarting, rescaling and reversing a ray). *)
From Coq Require Import Bool NArith ZArith Reals List Lra.
From Verif Require Import Scalar Types Vector2 Vector3 Point2 Point3 Ray BoundingBox2 BoundingBox3 XReal SpecReal SpecBox ExactRayLine.
Local Open Scope R_scope.
(** * C95: restarting a ray at ray.at(c) and rescaling its direction by k shifts and rescales the reported range *)
Theorem C95_restart_and_rescale_2d : forall (b : BoundingBox2 R) (r : Ray2 R) (c k : R), Rordered2 b -> r2_direction r <> Rzero2 -> 0 <= c -> 0 < k ->
  let r' := r2_new (r2_at (XR2 r) (Fin c)) (v2_mul (r2_direction (XR2 r)) (Fin k)) in
  match bb2_intersect_ray (XB2 b) (XR2 r) with
  | None => bb2_intersect_ray (XB2 b) r' = None
  | Some (s, e) => exists s' e' : R, s = Fin s' /\ e = Fin e' /\
      (c <= e' -> bb2_intersect_ray (XB2 b) r' = Some (Fin ((Rmax s' c - c) / k), Fin ((e' - c) / k))) /\
      (e' < c -> bb2_intersect_ray (XB2 b) r' = None)
  end.
Proof. exact C95_restart_and_rescale_2d_pf. Qed.
Print Assumptions C95_restart_and_rescale_2d.
Theorem C95_restart_and_rescale_3d : forall (b : BoundingBox3 R) (r : Ray3 R) (c k : R), Rordered3 b -> r3_direction r <> Rzero3 -> 0 <= c -> 0 < k ->
  let r' := r3_new (r3_at (XR3 r) (Fin c)) (v3_mul (r3_direction (XR3 r)) (Fin k)) in
  match bb3_intersect_ray (XB3 b) (XR3 r) with
  | None => bb3_intersect_ray (XB3 b) r' = None
  | Some (s, e) => exists s' e' : R, s = Fin s' /\ e = Fin e' /\
      (c <= e' -> bb3_intersect_ray (XB3 b) r' = Some (Fin ((Rmax s' c - c) / k), Fin ((e' - c) / k))) /\
      (e' < c -> bb3_intersect_ray (XB3 b) r' = None)
  end.
Proof. exact C95_restart_and_rescale_3d_pf. Qed.
Print Assumptions C95_restart_and_rescale_3d.
(** * turning a ray around beyond the box: the same stretch is reported, walked backwards *)
Theorem C95_reverse_2d : forall (b : BoundingBox2 R) (r : Ray2 R) (s e c k : R), Rordered2 b -> r2_direction r <> Rzero2 -> 0 <= c -> 0 < k -> 0 < s ->
  bb2_intersect_ray (XB2 b) (XR2 r) = Some (Fin s, Fin e) ->
  bb2_intersect_ray (XB2 b) (r2_new (r2_at (XR2 r) (Fin (e + c))) (v2_mul (v2_neg (r2_direction (XR2 r))) (Fin k))) = Some (Fin (c / k), Fin ((c + (e - s)) / k)).
Proof. exact C95_reverse_2d_pf. Qed.
Print Assumptions C95_reverse_2d.
Theorem C95_reverse_3d : forall (b : BoundingBox3 R) (r : Ray3 R) (s e c k : R), Rordered3 b -> r3_direction r <> Rzero3 -> 0 <= c -> 0 < k -> 0 < s ->
  bb3_intersect_ray (XB3 b) (XR3 r) = Some (Fin s, Fin e) ->
  bb3_intersect_ray (XB3 b) (r3_new (r3_at (XR3 r) (Fin (e + c))) (v3_mul (v3_neg (r3_direction (XR3 r))) (Fin k))) = Some (Fin (c / k), Fin ((c + (e - s)) / k)).
Proof. exact C95_reverse_3d_pf. Qed.
Print Assumptions C95_reverse_3d.
(* a ray that hits the box from 2 to 6; restarted at 3 with half the step it hits from 0 to 6; turned around at 8 from 2 to 6 *)
Example C95_concrete : bb2_intersect_ray (XB2 exb) (XR2 exr) = Some (Fin 2, Fin 6) /\
  bb2_intersect_ray (XB2 exb) (r2_new (r2_at (XR2 exr) (Fin 3)) (v2_mul (r2_direction (XR2 exr)) (Fin (1/2)))) = Some (Fin ((Rmax 2 3 - 3) / (1/2)), Fin ((6 - 3) / (1/2))) /\
  bb2_intersect_ray (XB2 exb) (r2_new (r2_at (XR2 exr) (Fin (6 + 2))) (v2_mul (v2_neg (r2_direction (XR2 exr))) (Fin 1))) = Some (Fin (2 / 1), Fin ((2 + (6 - 2)) / 1)).
Proof.
  destruct exb_hit as (O & D & E). split; [exact E|]. split.
  - assert (C : 0 <= 3) by lra. assert (K : 0 < 1 / 2) by lra. pose proof (C95_restart_and_rescale_2d_pf exb exr 3 (1/2) O D C K) as H. cbv zeta in H. rewrite E in H.
    destruct H as (s & e & E1 & E2 & H & _). injection E1 as <-. injection E2 as <-. apply H. lra.
  - apply C95_reverse_2d_pf; try assumption; lra.
Qed.
