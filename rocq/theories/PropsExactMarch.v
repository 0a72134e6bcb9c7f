(** Theorems: C120 (the part of a ray inside a box).  Exact arithmetic. *)
From Coq Require Import Bool NArith ZArith Reals List Lra.
From Verif Require Import Scalar Types Vector2 Vector3 Point2 Point3 Ray BoundingBox2 BoundingBox3
  XReal OrdLaws Arith SpecOrder SpecReal SpecBox XTac ExactBase ExactVec ExactBox ExactCircum ExactMarch.
Import ListNotations.
Local Open Scope R_scope.
(** the part of the ray inside the box: its length, its bound by the diagonal, and the distance from the origin to the box along the ray *)
Theorem C120_chord_2d : forall (b : BoundingBox2 R) (r : Ray2 R), Rordered2 b -> r2_direction r <> Rzero2 -> off_faces2 b r ->
  match bb2_intersect_ray (XB2 b) (XR2 r) with
  | None => bb2_is_inside (XB2 b) (XP2 (r2_origin r)) = false
  | Some (s, e) => exists s' e' : R, s = Fin s' /\ e = Fin e' /\ 0 <= s' <= e' /\
      (* length of the chord *)
      p2_distance (r2_at (XR2 r) s) (r2_at (XR2 r) e) = smul (Fin (e' - s')) (v2_length (XV2 (r2_direction r))) /\
      Le (p2_distance (r2_at (XR2 r) s) (r2_at (XR2 r) e)) (v2_length (bb2_diagonal (XB2 b))) /\
      (* the way to the box *)
      p2_distance (XP2 (r2_origin r)) (r2_at (XR2 r) s) = smul s (v2_length (XV2 (r2_direction r))) /\
      (forall t : R, 0 <= t -> bb2_is_inside (XB2 b) (r2_at (XR2 r) (Fin t)) = true ->
         Le (p2_distance (XP2 (r2_origin r)) (r2_at (XR2 r) s)) (p2_distance (XP2 (r2_origin r)) (r2_at (XR2 r) (Fin t))) /\
         Le (p2_distance (XP2 (r2_origin r)) (r2_at (XR2 r) (Fin t))) (p2_distance (XP2 (r2_origin r)) (r2_at (XR2 r) e))) /\
      (s = Fin 0 <-> bb2_is_inside (XB2 b) (XP2 (r2_origin r)) = true)
  end.
Proof. exact C120_chord_2d_pf. Qed.
Print Assumptions C120_chord_2d.
Theorem C120_chord_3d : forall (b : BoundingBox3 R) (r : Ray3 R), Rordered3 b -> r3_direction r <> Rzero3 -> off_faces3 b r ->
  match bb3_intersect_ray (XB3 b) (XR3 r) with
  | None => bb3_is_inside (XB3 b) (XP3 (r3_origin r)) = false
  | Some (s, e) => exists s' e' : R, s = Fin s' /\ e = Fin e' /\ 0 <= s' <= e' /\
      (* length of the chord *)
      p3_distance (r3_at (XR3 r) s) (r3_at (XR3 r) e) = smul (Fin (e' - s')) (v3_length (XV3 (r3_direction r))) /\
      Le (p3_distance (r3_at (XR3 r) s) (r3_at (XR3 r) e)) (v3_length (bb3_diagonal (XB3 b))) /\
      (* the way to the box *)
      p3_distance (XP3 (r3_origin r)) (r3_at (XR3 r) s) = smul s (v3_length (XV3 (r3_direction r))) /\
      (forall t : R, 0 <= t -> bb3_is_inside (XB3 b) (r3_at (XR3 r) (Fin t)) = true ->
         Le (p3_distance (XP3 (r3_origin r)) (r3_at (XR3 r) s)) (p3_distance (XP3 (r3_origin r)) (r3_at (XR3 r) (Fin t))) /\
         Le (p3_distance (XP3 (r3_origin r)) (r3_at (XR3 r) (Fin t))) (p3_distance (XP3 (r3_origin r)) (r3_at (XR3 r) e))) /\
      (s = Fin 0 <-> bb3_is_inside (XB3 b) (XP3 (r3_origin r)) = true)
  end.
Proof. exact C120_chord_3d_pf. Qed.
Print Assumptions C120_chord_3d.
(** marching: n equal steps from entry to exit stay inside the box, and all steps together are no longer than the diagonal *)
Theorem C120_march_2d : forall (b : BoundingBox2 R) (r : Ray2 R) (s e : R) (n k : nat), Rordered2 b -> r2_direction r <> Rzero2 -> off_faces2 b r ->
  bb2_intersect_ray (XB2 b) (XR2 r) = Some (Fin s, Fin e) -> (0 < n)%nat -> (k <= n)%nat ->
  let at_step := (fun j : nat => r2_at (XR2 r) (Fin (s + INR j * ((e - s) / INR n)))) in
  bb2_is_inside (XB2 b) (at_step k) = true /\ at_step 0%nat = r2_at (XR2 r) (Fin s) /\ at_step n = r2_at (XR2 r) (Fin e) /\
  Le (smul (Fin (INR n)) (p2_distance (at_step k) (at_step (S k)))) (v2_length (bb2_diagonal (XB2 b))).
Proof. exact C120_march_2d_pf. Qed.
Print Assumptions C120_march_2d.
Theorem C120_march_3d : forall (b : BoundingBox3 R) (r : Ray3 R) (s e : R) (n k : nat), Rordered3 b -> r3_direction r <> Rzero3 -> off_faces3 b r ->
  bb3_intersect_ray (XB3 b) (XR3 r) = Some (Fin s, Fin e) -> (0 < n)%nat -> (k <= n)%nat ->
  let at_step := (fun j : nat => r3_at (XR3 r) (Fin (s + INR j * ((e - s) / INR n)))) in
  bb3_is_inside (XB3 b) (at_step k) = true /\ at_step 0%nat = r3_at (XR3 r) (Fin s) /\ at_step n = r3_at (XR3 r) (Fin e) /\
  Le (smul (Fin (INR n)) (p3_distance (at_step k) (at_step (S k)))) (v3_length (bb3_diagonal (XB3 b))).
Proof. exact C120_march_3d_pf. Qed.
Print Assumptions C120_march_3d.
(* a ray along x from 0 through a box from 1 to 3: entry at 1, exit at 3 *)
Example C120_example_2d : Rordered2 mb2 /\ r2_direction mr2 <> Rzero2 /\ off_faces2 mb2 mr2 /\
  exists s e : xreal, bb2_intersect_ray (XB2 mb2) (XR2 mr2) = Some (s, e) /\ s = Fin 1 /\ e = Fin 3.
Proof.
  assert (O : Rordered2 mb2) by (unfold Rordered2, mb2; cbn; lra).
  assert (D : r2_direction mr2 <> Rzero2) by (unfold mr2, Rzero2; cbn [r2_direction]; intros E; injection E; lra).
  assert (F : off_faces2 mb2 mr2) by (unfold off_faces2, off_plane, mb2, mr2; cbn; repeat split; lra).
  split; [exact O|]. split; [exact D|]. split; [exact F|]. pose proof (C16_ray_intersection_2d_pf mb2 mr2 O D F) as G.
  assert (I : forall t, bb2_is_inside (XB2 mb2) (r2_at (XR2 mr2) (Fin t)) = true <-> 1 <= t <= 3).
  { intros t. rewrite xr2_at, xle_iff2_inside. unfold Rin2, Rat2, mb2, mr2. cbn. split; intros; lra. }
  destruct (bb2_intersect_ray (XB2 mb2) (XR2 mr2)) as [[s e]|].
  - destruct G as (a & c & -> & -> & L & G). exists (Fin a), (Fin c). split; [reflexivity|].
    assert (A : 1 <= a <= 3) by (apply I, G; lra). assert (C : 1 <= c <= 3) by (apply I, G; lra).
    assert (B1 : a <= 1 <= c) by (apply G; [lra|]; apply I; lra). assert (B2 : a <= 3 <= c) by (apply G; [lra|]; apply I; lra).
    split; apply Fin_eq; lra.
  - specialize (G 1 ltac:(lra)). rewrite (proj2 (I 1)) in G by lra. discriminate.
Qed.
(* a ray along x from 0 through a box from 1 to 3: entry at 1, exit at 3 *)
Example C120_example_3d : Rordered3 mb3 /\ r3_direction mr3 <> Rzero3 /\ off_faces3 mb3 mr3 /\
  exists s e : xreal, bb3_intersect_ray (XB3 mb3) (XR3 mr3) = Some (s, e) /\ s = Fin 1 /\ e = Fin 3.
Proof.
  assert (O : Rordered3 mb3) by (unfold Rordered3, mb3; cbn; lra).
  assert (D : r3_direction mr3 <> Rzero3) by (unfold mr3, Rzero3; cbn [r3_direction]; intros E; injection E; lra).
  assert (F : off_faces3 mb3 mr3) by (unfold off_faces3, off_plane, mb3, mr3; cbn; repeat split; lra).
  split; [exact O|]. split; [exact D|]. split; [exact F|]. pose proof (C16_ray_intersection_3d_pf mb3 mr3 O D F) as G.
  assert (I : forall t, bb3_is_inside (XB3 mb3) (r3_at (XR3 mr3) (Fin t)) = true <-> 1 <= t <= 3).
  { intros t. rewrite xr3_at, xle_iff3_inside. unfold Rin3, Rat3, mb3, mr3. cbn. split; intros; lra. }
  destruct (bb3_intersect_ray (XB3 mb3) (XR3 mr3)) as [[s e]|].
  - destruct G as (a & c & -> & -> & L & G). exists (Fin a), (Fin c). split; [reflexivity|].
    assert (A : 1 <= a <= 3) by (apply I, G; lra). assert (C : 1 <= c <= 3) by (apply I, G; lra).
    assert (B1 : a <= 1 <= c) by (apply G; [lra|]; apply I; lra). assert (B2 : a <= 3 <= c) by (apply G; [lra|]; apply I; lra).
    split; apply Fin_eq; lra.
  - specialize (G 1 ltac:(lra)). rewrite (proj2 (I 1)) in G by lra. discriminate.
Qed.
