(** Theorems: C122 (intersecting a ray with a triangle).  Exact arithmetic. *)
From Coq Require Import Bool NArith ZArith Reals List Lra.
From Verif Require Import Scalar Types Vector2 Vector3 Point2 Point3 Ray BoundingBox3
  XReal OrdLaws Arith SpecOrder SpecReal SpecBox SpecTri XTac ExactBase ExactVec ExactTri.
Local Open Scope R_scope.
(** every reported hit is one *)
Theorem C122_sound : forall (r : Ray3 R) (a b c : Point3 R) (x : xreal * xreal * xreal), ray_triangle (XR3 r) (XP3 a) (XP3 b) (XP3 c) = Some x ->
  exists t u v : R, x = (Fin t, Fin u, Fin v) /\ Hits r a b c t u v.
Proof. exact C122_sound_pf. Qed.
Print Assumptions C122_sound.
(** every hit is reported, unless the ray is parallel to the triangle, with its only parameter; a parallel ray reports nothing *)
Theorem C122_complete : forall (r : Ray3 R) (a b c : Point3 R),
  let normal := v3_cross (p3_sub (XP3 b) (XP3 a)) (p3_sub (XP3 c) (XP3 a)) in
  (v3_dot normal (XV3 (r3_direction r)) = Fin 0 -> ray_triangle (XR3 r) (XP3 a) (XP3 b) (XP3 c) = None) /\
  (v3_dot normal (XV3 (r3_direction r)) <> Fin 0 -> forall t u v : R, Hits r a b c t u v -> ray_triangle (XR3 r) (XP3 a) (XP3 b) (XP3 c) = Some (Fin t, Fin u, Fin v)).
Proof. exact C122_complete_pf. Qed.
Print Assumptions C122_complete.
(** a hit lies in the bounding box of the three corners, so a box test in front of the triangle test loses nothing *)
Theorem C122_box_first : forall (r : Ray3 R) (a b c : Point3 R), let box := bb3_union_point (bb3_new (XP3 a) (XP3 b)) (XP3 c) in
  (forall t u v : R, Hits r a b c t u v -> bb3_is_inside box (r3_at (XR3 r) (Fin t)) = true) /\
  (forall k : BoundingBox3 R, box = XB3 k -> r3_direction r <> Rzero3 -> off_faces3 k r -> bb3_intersect_ray box (XR3 r) = None -> ray_triangle (XR3 r) (XP3 a) (XP3 b) (XP3 c) = None).
Proof. exact C122_box_first_pf. Qed.
Print Assumptions C122_box_first.
(* a ray straight down hits the triangle at parameter 5, in its point (1/4, 1/4), and the function finds it *)
Example C122_example : Hits trr tra trb trc 5 (1 / 4) (1 / 4) /\
  v3_dot (v3_cross (p3_sub (XP3 trb) (XP3 tra)) (p3_sub (XP3 trc) (XP3 tra))) (XV3 (r3_direction trr)) <> Fin 0 /\
  ray_triangle (XR3 trr) (XP3 tra) (XP3 trb) (XP3 trc) = Some (Fin 5, Fin (1 / 4), Fin (1 / 4)).
Proof. destruct tr_facts as [H N]. split; [exact H|]. split; [exact N|]. exact (proj2 (C122_complete _ _ _ _) N _ _ _ H). Qed.
