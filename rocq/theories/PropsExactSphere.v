(** Theorems: C123 (intersecting a ray with a ball).  Exact arithmetic. *)
From Coq Require Import Bool NArith ZArith Reals List Lra.
From Verif Require Import Scalar Types Vector2 Vector3 Point2 Point3 Ray
  XReal OrdLaws Arith SpecOrder SpecReal SpecBox SpecSphere XTac ExactBase ExactVec ExactBox ExactCircum ExactReflect ExactSphere.
Local Open Scope R_scope.
(** the range reported for a ball is exactly the set of parameters at which the ray is in the ball *)
Theorem C123_ray_ball_2d : forall (r : Ray2 R) (c : Point2 R) (radius : R), r2_direction r <> Rzero2 -> 0 <= radius ->
  match ray_ball2 (XR2 r) (XP2 c) (Fin radius) with
  | None => forall t : R, 0 <= t -> ~ Le (p2_distance (XP2 c) (r2_at (XR2 r) (Fin t))) (Fin radius)
  | Some (s, e) => exists s' e' : R, s = Fin s' /\ e = Fin e' /\ 0 <= s' <= e' /\
      forall t : R, 0 <= t -> (Le (p2_distance (XP2 c) (r2_at (XR2 r) (Fin t))) (Fin radius) <-> s' <= t <= e')
  end.
Proof. exact C123_ray_ball_2d_pf. Qed.
Print Assumptions C123_ray_ball_2d.
Theorem C123_ray_ball_3d : forall (r : Ray3 R) (c : Point3 R) (radius : R), r3_direction r <> Rzero3 -> 0 <= radius ->
  match ray_ball3 (XR3 r) (XP3 c) (Fin radius) with
  | None => forall t : R, 0 <= t -> ~ Le (p3_distance (XP3 c) (r3_at (XR3 r) (Fin t))) (Fin radius)
  | Some (s, e) => exists s' e' : R, s = Fin s' /\ e = Fin e' /\ 0 <= s' <= e' /\
      forall t : R, 0 <= t -> (Le (p3_distance (XP3 c) (r3_at (XR3 r) (Fin t))) (Fin radius) <-> s' <= t <= e')
  end.
Proof. exact C123_ray_ball_3d_pf. Qed.
Print Assumptions C123_ray_ball_3d.
(* a ray from -5 along x meets the ball of radius 2 around the origin from 3 to 7 *)
Example C123_example_2d : r2_direction spr2 <> Rzero2 /\ exists s e : xreal, ray_ball2 (XR2 spr2) (XP2 spc2) (Fin 2) = Some (s, e) /\ s = Fin 3 /\ e = Fin 7.
Proof.
  destruct sp_facts2 as [H I]. split; [exact H|]. pose proof (C123_ray_ball_2d spr2 spc2 2 H ltac:(lra)) as G. destruct (ray_ball2 (XR2 spr2) (XP2 spc2) (Fin 2)) as [[s e]|].
  - destruct G as (a & c & -> & -> & L & G). exists (Fin a), (Fin c). split; [reflexivity|].
    assert (A : 3 <= a <= 7) by (apply I, G; lra). assert (C : 3 <= c <= 7) by (apply I, G; lra).
    assert (B1 : a <= 3 <= c) by (apply G; [lra|]; apply I; lra). assert (B2 : a <= 7 <= c) by (apply G; [lra|]; apply I; lra).
    split; apply Fin_eq; lra.
  - exfalso. apply (G 3); [lra|]. apply I. lra.
Qed.
(* a ray from -5 along x meets the ball of radius 2 around the origin from 3 to 7 *)
Example C123_example_3d : r3_direction spr3 <> Rzero3 /\ exists s e : xreal, ray_ball3 (XR3 spr3) (XP3 spc3) (Fin 2) = Some (s, e) /\ s = Fin 3 /\ e = Fin 7.
Proof.
  destruct sp_facts3 as [H I]. split; [exact H|]. pose proof (C123_ray_ball_3d spr3 spc3 2 H ltac:(lra)) as G. destruct (ray_ball3 (XR3 spr3) (XP3 spc3) (Fin 2)) as [[s e]|].
  - destruct G as (a & c & -> & -> & L & G). exists (Fin a), (Fin c). split; [reflexivity|].
    assert (A : 3 <= a <= 7) by (apply I, G; lra). assert (C : 3 <= c <= 7) by (apply I, G; lra).
    assert (B1 : a <= 3 <= c) by (apply G; [lra|]; apply I; lra). assert (B2 : a <= 7 <= c) by (apply G; [lra|]; apply I; lra).
    split; apply Fin_eq; lra.
  - exfalso. apply (G 3); [lra|]. apply I. lra.
Qed.
