(** Theorems: C118 (scene graphs: casting, picking and flattening).  Exact arithmetic. *)
From Coq Require Import Bool NArith ZArith Reals List Lra.
From Verif Require Import Scalar Types Vector2 Vector3 Point2 Point3 Ray BoundingBox2 BoundingBox3 Transform2 Transform3
  XReal Arith SpecReal SpecBox SpecTrans SpecScene XTac ExactBase ExactMat ExactTrans ExactTransRay ExactScene.
Import ListNotations.
Local Open Scope R_scope.
Theorem C118_cast_2d : forall (s : scene2) (r : Ray2 R), SceneOk2 s -> r2_direction r <> Rzero2 -> Clear2 s r ->
  (forall (i : N) (x : xreal), In (i, x) (cast2 s (XR2 r)) -> exists x' : R, x = Fin x' /\ 0 <= x' /\ Covers2 s i (Rat2 r x')) /\
  (forall (i : N) (y : R), 0 <= y -> Covers2 s i (Rat2 r y) -> exists x' : R, x' <= y /\ In (i, Fin x') (cast2 s (XR2 r))).
Proof. exact C118_cast_2d_pf. Qed.
Print Assumptions C118_cast_2d.
Theorem C118_cast_3d : forall (s : scene3) (r : Ray3 R), SceneOk3 s -> r3_direction r <> Rzero3 -> Clear3 s r ->
  (forall (i : N) (x : xreal), In (i, x) (cast3 s (XR3 r)) -> exists x' : R, x = Fin x' /\ 0 <= x' /\ Covers3 s i (Rat3 r x')) /\
  (forall (i : N) (y : R), 0 <= y -> Covers3 s i (Rat3 r y) -> exists x' : R, x' <= y /\ In (i, Fin x') (cast3 s (XR3 r))).
Proof. exact C118_cast_3d_pf. Qed.
Print Assumptions C118_cast_3d.
Theorem C118_first_hit_2d : forall (s : scene2) (r : Ray2 R), SceneOk2 s -> r2_direction r <> Rzero2 -> Clear2 s r ->
  match first_hit (cast2 s (XR2 r)) with
  | None => forall (i : N) (y : R), 0 <= y -> ~ Covers2 s i (Rat2 r y)
  | Some (i, x) => exists x' : R, x = Fin x' /\ 0 <= x' /\ Covers2 s i (Rat2 r x') /\ forall (j : N) (y : R), 0 <= y < x' -> ~ Covers2 s j (Rat2 r y)
  end.
Proof. exact C118_first_hit_2d_pf. Qed.
Print Assumptions C118_first_hit_2d.
Theorem C118_first_hit_3d : forall (s : scene3) (r : Ray3 R), SceneOk3 s -> r3_direction r <> Rzero3 -> Clear3 s r ->
  match first_hit (cast3 s (XR3 r)) with
  | None => forall (i : N) (y : R), 0 <= y -> ~ Covers3 s i (Rat3 r y)
  | Some (i, x) => exists x' : R, x = Fin x' /\ 0 <= x' /\ Covers3 s i (Rat3 r x') /\ forall (j : N) (y : R), 0 <= y < x' -> ~ Covers3 s j (Rat3 r y)
  end.
Proof. exact C118_first_hit_3d_pf. Qed.
Print Assumptions C118_first_hit_3d.
Theorem C118_pick_2d : forall (s : scene2) (p : Point2 R) (i : N), SceneOk2 s -> (In i (pick2 s (XP2 p)) <-> Covers2 s i p).
Proof. exact C118_pick_2d_pf. Qed.
Print Assumptions C118_pick_2d.
Theorem C118_pick_3d : forall (s : scene3) (p : Point3 R) (i : N), SceneOk3 s -> (In i (pick3 s (XP3 p)) <-> Covers3 s i p).
Proof. exact C118_pick_3d_pf. Qed.
Print Assumptions C118_pick_3d.
Theorem C118_flatten_covers_2d : forall (s : scene2) (i : N) (p : Point2 R), SceneOk2 s ->
  (Covers2 s i p <-> exists (t : Transform2 xreal) (b : BoundingBox2 R) (q : Point2 R), In (i, t, b) (flatten2 t2_identity s) /\ Rin2 q b /\ t2_transform_point t (XP2 q) = XP2 p).
Proof. exact C118_flatten_covers_2d_pf. Qed.
Print Assumptions C118_flatten_covers_2d.
Theorem C118_flatten_covers_3d : forall (s : scene3) (i : N) (p : Point3 R), SceneOk3 s ->
  (Covers3 s i p <-> exists (t : Transform3 xreal) (b : BoundingBox3 R) (q : Point3 R), In (i, t, b) (flatten3 t3_identity s) /\ Rin3 q b /\ t3_transform_point t (XP3 q) = XP3 p).
Proof. exact C118_flatten_covers_3d_pf. Qed.
Print Assumptions C118_flatten_covers_3d.
Theorem C118_flatten_cast_2d : forall (s : scene2) (r : Ray2 R), SceneOk2 s ->
  cast2 s (XR2 r) =
  flat_map (fun '(i, t, b) => match bb2_intersect_ray (XB2 b) (t2_transform_ray (t2_inverse t) (XR2 r)) with Some (s0, _) => [(i, s0)] | None => [] end) (flatten2 t2_identity s) /\
  (forall (i : N) (t : Transform2 xreal) (b : BoundingBox2 R), In (i, t, b) (flatten2 t2_identity s) -> Built2 affine2 t).
Proof. exact C118_flatten_cast_2d_pf. Qed.
Print Assumptions C118_flatten_cast_2d.
Theorem C118_flatten_cast_3d : forall (s : scene3) (r : Ray3 R), SceneOk3 s ->
  cast3 s (XR3 r) =
  flat_map (fun '(i, t, b) => match bb3_intersect_ray (XB3 b) (t3_transform_ray (t3_inverse t) (XR3 r)) with Some (s0, _) => [(i, s0)] | None => [] end) (flatten3 t3_identity s) /\
  (forall (i : N) (t : Transform3 xreal) (b : BoundingBox3 R), In (i, t, b) (flatten3 t3_identity s) -> Built3 affine3 t).
Proof. exact C118_flatten_cast_3d_pf. Qed.
Print Assumptions C118_flatten_cast_3d.
(* a ray meets object 1, moved twice by 5, at parameter 10: the hypotheses of C118 hold, a hit at 10 or before is reported, and [first_hit] finds one *)
Example C118_example_2d : SceneOk2 exscene2 /\ r2_direction er2 <> Rzero2 /\ Clear2 exscene2 er2 /\ Covers2 exscene2 1%N (Rat2 er2 10) /\
  (exists x' : R, x' <= 10 /\ In (1%N, Fin x') (cast2 exscene2 (XR2 er2))) /\ In 1%N (pick2 exscene2 (XP2 (Rat2 er2 10))) /\
  length (flatten2 t2_identity exscene2) = 2%nat /\ first_hit (cast2 exscene2 (XR2 er2)) <> None.
Proof.
  destruct exscene_facts2 as (OK & D & C & V). split; [exact OK|]. split; [exact D|]. split; [exact C|]. split; [exact V|].
  split; [apply (proj2 (C118_cast_2d _ _ OK D C)); [lra | exact V]|]. split; [apply (C118_pick_2d _ _ _ OK); exact V|].
  split; [reflexivity|]. pose proof (C118_first_hit_2d _ _ OK D C) as F. intros E. rewrite E in F. apply (F 1%N 10); [lra | exact V].
Qed.
(* a ray meets object 1, moved twice by 5, at parameter 10: the hypotheses of C118 hold, a hit at 10 or before is reported, and [first_hit] finds one *)
Example C118_example_3d : SceneOk3 exscene3 /\ r3_direction er3 <> Rzero3 /\ Clear3 exscene3 er3 /\ Covers3 exscene3 1%N (Rat3 er3 10) /\
  (exists x' : R, x' <= 10 /\ In (1%N, Fin x') (cast3 exscene3 (XR3 er3))) /\ In 1%N (pick3 exscene3 (XP3 (Rat3 er3 10))) /\
  length (flatten3 t3_identity exscene3) = 2%nat /\ first_hit (cast3 exscene3 (XR3 er3)) <> None.
Proof.
  destruct exscene_facts3 as (OK & D & C & V). split; [exact OK|]. split; [exact D|]. split; [exact C|]. split; [exact V|].
  split; [apply (proj2 (C118_cast_3d _ _ OK D C)); [lra | exact V]|]. split; [apply (C118_pick_3d _ _ _ OK); exact V|].
  split; [reflexivity|]. pose proof (C118_first_hit_3d _ _ OK D C) as F. intros E. rewrite E in F. apply (F 1%N 10); [lra | exact V].
Qed.
