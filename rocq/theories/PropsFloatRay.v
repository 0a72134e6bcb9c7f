(** Property theorems on the ray-box test in floating point (C19, C57, C58), on the empty box (C07, C11) and on
    degenerate look_at (C49).  [A] ranges over f32 and f64 on every platform, and exact reals. *)
From Coq Require Import Bool NArith ZArith Reals List Lra Lia.
From Verif Require Import Scalar Types Vector2 Vector3 Point2 Point3 Ray BoundingBox2 BoundingBox3 Transform2 Transform3 Float
  XReal Arith SpecOrder SpecStruct SpecFloat ExVals FloatRay.
Import ListNotations.
(** * C57: a ray that starts in the box hits it at once *)
Theorem C57_origin_inside_hits_2d : forall (A : arith) (b : BoundingBox2 (num A)) (r : Ray2 (num A)), Finite2 (r2_origin r) -> In2 (r2_origin r) b ->
  (forall d, Eqs (vcoord2 (r2_direction r) d) szero ->
     Lt (coord2 (bb2_min b) d) (coord2 (r2_origin r) d) /\ Lt (coord2 (r2_origin r) d) (coord2 (bb2_max b) d)) ->
  exists s e, bb2_intersect_ray b r = Some (s, e) /\ Eqs s szero /\ Le szero e.
Proof. exact C57_origin_inside_hits_2d_pf. Qed.
Print Assumptions C57_origin_inside_hits_2d.
Theorem C57_origin_inside_hits_3d : forall (A : arith) (b : BoundingBox3 (num A)) (r : Ray3 (num A)), Finite3 (r3_origin r) -> In3 (r3_origin r) b ->
  (forall d, Eqs (vcoord3 (r3_direction r) d) szero ->
     Lt (coord3 (bb3_min b) d) (coord3 (r3_origin r) d) /\ Lt (coord3 (r3_origin r) d) (coord3 (bb3_max b) d)) ->
  exists s e, bb3_intersect_ray b r = Some (s, e) /\ Eqs s szero /\ Le szero e.
Proof. exact C57_origin_inside_hits_3d_pf. Qed.
Print Assumptions C57_origin_inside_hits_3d.
(** * C58: monotone under box inclusion *)
Theorem C58_monotone_2d : forall (A : arith) (a b : BoundingBox2 (num A)) (r : Ray2 (num A)) (s e : num A), Ordered2 a -> Incl2 a b ->
  Finite2 (r2_origin r) -> VFinite2 (r2_direction r) ->
  (forall d, Eqs (vcoord2 (r2_direction r) d) szero ->
     ~ Eqs (coord2 (r2_origin r) d) (coord2 (bb2_min b) d) /\ ~ Eqs (coord2 (r2_origin r) d) (coord2 (bb2_max b) d)) ->
  bb2_intersect_ray a r = Some (s, e) ->
  exists s' e', bb2_intersect_ray b r = Some (s', e') /\ Le s' s /\ Le e e'.
Proof. exact C58_monotone_2d_pf. Qed.
Print Assumptions C58_monotone_2d.
Theorem C58_monotone_3d : forall (A : arith) (a b : BoundingBox3 (num A)) (r : Ray3 (num A)) (s e : num A), Ordered3 a -> Incl3 a b ->
  Finite3 (r3_origin r) -> VFinite3 (r3_direction r) ->
  (forall d, Eqs (vcoord3 (r3_direction r) d) szero ->
     ~ Eqs (coord3 (r3_origin r) d) (coord3 (bb3_min b) d) /\ ~ Eqs (coord3 (r3_origin r) d) (coord3 (bb3_max b) d)) ->
  bb3_intersect_ray a r = Some (s, e) ->
  exists s' e', bb3_intersect_ray b r = Some (s', e') /\ Le s' s /\ Le e e'.
Proof. exact C58_monotone_3d_pf. Qed.
Print Assumptions C58_monotone_3d.
(** a hierarchy of boxes built by union never loses a hit *)
Theorem C58_union_keeps_hits_2d : forall (A : arith) (l : list (BoundingBox2 (num A))) (a b : BoundingBox2 (num A)) (r : Ray2 (num A)) (s e : num A),
  Forall Ordered2 (b :: l) -> List.In a (b :: l) -> let u := fold_left bb2_union l b in
  Finite2 (r2_origin r) -> VFinite2 (r2_direction r) ->
  (forall d, Eqs (vcoord2 (r2_direction r) d) szero ->
     ~ Eqs (coord2 (r2_origin r) d) (coord2 (bb2_min u) d) /\ ~ Eqs (coord2 (r2_origin r) d) (coord2 (bb2_max u) d)) ->
  bb2_intersect_ray a r = Some (s, e) ->
  exists s' e', bb2_intersect_ray u r = Some (s', e') /\ Le s' s /\ Le e e'.
Proof. exact C58_union_keeps_hits_2d_pf. Qed.
Print Assumptions C58_union_keeps_hits_2d.
Theorem C58_union_keeps_hits_3d : forall (A : arith) (l : list (BoundingBox3 (num A))) (a b : BoundingBox3 (num A)) (r : Ray3 (num A)) (s e : num A),
  Forall Ordered3 (b :: l) -> List.In a (b :: l) -> let u := fold_left bb3_union l b in
  Finite3 (r3_origin r) -> VFinite3 (r3_direction r) ->
  (forall d, Eqs (vcoord3 (r3_direction r) d) szero ->
     ~ Eqs (coord3 (r3_origin r) d) (coord3 (bb3_min u) d) /\ ~ Eqs (coord3 (r3_origin r) d) (coord3 (bb3_max u) d)) ->
  bb3_intersect_ray a r = Some (s, e) ->
  exists s' e', bb3_intersect_ray u r = Some (s', e') /\ Le s' s /\ Le e e'.
Proof. exact C58_union_keeps_hits_3d_pf. Qed.
Print Assumptions C58_union_keeps_hits_3d.
(** * C19: every ray with a finite origin "hits" the empty box and the infinite box *)
Theorem C19_empty_and_infinite_box_float_2d : forall (A : arith) (r : Ray2 (num A)), Finite2 (r2_origin r) ->
  (exists s e, bb2_intersect_ray bb2_empty r = Some (s, e) /\ Eqs s szero /\ Eqs e sinf) /\
  (exists s e, bb2_intersect_ray bb2_infinite r = Some (s, e) /\ Eqs s szero /\ Eqs e sinf).
Proof. exact C19_empty_and_infinite_box_float_2d_pf. Qed.
Print Assumptions C19_empty_and_infinite_box_float_2d.
Theorem C19_empty_and_infinite_box_float_3d : forall (A : arith) (r : Ray3 (num A)), Finite3 (r3_origin r) ->
  (exists s e, bb3_intersect_ray bb3_empty r = Some (s, e) /\ Eqs s szero /\ Eqs e sinf) /\
  (exists s e, bb3_intersect_ray bb3_infinite r = Some (s, e) /\ Eqs s szero /\ Eqs e sinf).
Proof. exact C19_empty_and_infinite_box_float_3d_pf. Qed.
Print Assumptions C19_empty_and_infinite_box_float_3d.
(** * C07: what union with the empty box gives, for every box (inverted ones included) *)
Theorem C07_union_with_empty_2d : forall (A : arith) (b : BoundingBox2 (num A)), NoNaN2 (bb2_min b) -> NoNaN2 (bb2_max b) ->
  BEq2 (bb2_union bb2_empty b) (bb2_new (bb2_min b) (bb2_max b)) /\ BEq2 (bb2_union b bb2_empty) (bb2_new (bb2_min b) (bb2_max b)).
Proof. exact C07_union_with_empty_2d_pf. Qed.
Print Assumptions C07_union_with_empty_2d.
Theorem C07_union_with_empty_3d : forall (A : arith) (b : BoundingBox3 (num A)), NoNaN3 (bb3_min b) -> NoNaN3 (bb3_max b) ->
  BEq3 (bb3_union bb3_empty b) (bb3_new (bb3_min b) (bb3_max b)) /\ BEq3 (bb3_union b bb3_empty) (bb3_new (bb3_min b) (bb3_max b)).
Proof. exact C07_union_with_empty_3d_pf. Qed.
Print Assumptions C07_union_with_empty_3d.
(** * C11: exactly which boxes "intersect" the empty box *)
Theorem C11_intersect_empty_iff_2d : forall (A : arith) (b : BoundingBox2 (num A)),
  (bb2_intersect b bb2_empty <> None <-> forall d, Le sinf (coord2 (bb2_max b) d) /\ Le (coord2 (bb2_min b) d) sninf) /\
  (bb2_intersect bb2_empty b <> None <-> forall d, Le sinf (coord2 (bb2_max b) d) /\ Le (coord2 (bb2_min b) d) sninf).
Proof. exact C11_intersect_empty_iff_2d_pf. Qed.
Print Assumptions C11_intersect_empty_iff_2d.
Theorem C11_intersect_empty_iff_3d : forall (A : arith) (b : BoundingBox3 (num A)),
  (bb3_intersect b bb3_empty <> None <-> forall d, Le sinf (coord3 (bb3_max b) d) /\ Le (coord3 (bb3_min b) d) sninf) /\
  (bb3_intersect bb3_empty b <> None <-> forall d, Le sinf (coord3 (bb3_max b) d) /\ Le (coord3 (bb3_min b) d) sninf).
Proof. exact C11_intersect_empty_iff_3d_pf. Qed.
Print Assumptions C11_intersect_empty_iff_3d.
(** * C49: in floating point too, look_at with from == target or a zero up vector is Ok and every transformed point is NaN *)
Theorem C49_degenerate_gives_nan_float : forall (A : arith) (prof : profile) (from target : Point3 (num A)) (up : Vector3 (num A)),
  (Finite3 from /\ PEq3 from target \/ forall d, Eqs (vcoord3 up d) szero) ->
  exists t, t3_look_at prof from target up = Ret (Ok t) /\
    (forall p d, snan (coord3 (t3_transform_point t p) d) = true) /\ (forall v d, snan (vcoord3 (t3_transform_vector t v) d) = true).
Proof. exact C49_degenerate_gives_nan_float_pf. Qed.
Print Assumptions C49_degenerate_gives_nan_float.
(* rays starting inside a box, along an axis, along no axis, and with an infinite direction *)
Example C57_example : let b := boxA3 in let o := mkPoint3 (d64 1 0) (d64 1 (-1)) (d64 1 0) in
  Finite3 o /\ In3 o b /\ (forall d, Lt (coord3 (bb3_min b) d) (coord3 o d) /\ Lt (coord3 o d) (coord3 (bb3_max b) d)) /\
  is_some (bb3_intersect_ray b (mkRay3 o (mkVector3 (d64 0 0) (d64 0 0) (nd64 1 0)))) = true /\
  is_some (bb3_intersect_ray b (mkRay3 o (mkVector3 (d64 3 0) (d64 1 (-70)) (nd64 1 900)))) = true /\
  is_some (bb3_intersect_ray b (mkRay3 o (mkVector3 sinf (d64 0 0) nan64))) = true.
Proof. repeat apply conj; try (intros []); try apply conj; vm_compute; reflexivity. Qed.
Example C58_example : let a := boxA2 in let b := bb2_union boxA2 boxB2 in
  Ordered2 a /\ Ordered2 boxB2 /\ Finite2 (r2_origin rayA2) /\ VFinite2 (r2_direction rayA2) /\ is_some (bb2_intersect_ray a rayA2) = true /\
  (let r := mkRay2 (mkPoint2 (nd64 1 0) (d64 1 0)) (mkVector2 (d64 1 0) (d64 0 0)) in is_some (bb2_intersect_ray a r) = true /\
   seq (p2y (r2_origin r)) (p2y (bb2_min b)) = false /\ seq (p2y (r2_origin r)) (p2y (bb2_max b)) = false).
Proof. cbv zeta. repeat apply conj; try (intros []); vm_compute; reflexivity. Qed.
(* why C58 excludes rays in a face plane of the larger box: the ray hits the smaller box only *)
Example C58_face_plane : let r := mkRay2 (mkPoint2 (nd64 1 0) (d64 0 0)) (mkVector2 (d64 1 0) (d64 0 0)) in
  let a := mkBB2 (mkPoint2 (d64 0 0) (d64 0 0)) (mkPoint2 (d64 2 0) (d64 0 0)) in let b := mkBB2 (mkPoint2 (d64 0 0) (d64 0 0)) (mkPoint2 (d64 2 0) (d64 3 0)) in
  is_some (bb2_intersect_ray a r) = true /\ is_some (bb2_intersect_ray b r) = false.
Proof. cbv zeta. split; vm_compute; reflexivity. Qed.
Example C07_example : let b := mkBB2 (mkPoint2 (d64 5 0) (d64 1 0)) (mkPoint2 (d64 2 0) (d64 3 0)) in
  ~ Ordered2 b /\ NoNaN2 (bb2_min b) /\ NoNaN2 (bb2_max b).
Proof. split; [intros H; specialize (H D2X); vm_compute in H; discriminate|]. split; intros []; vm_compute; reflexivity. Qed.
Example C49_example : Finite3 ptA3 /\ PEq3 ptA3 ptA3.
Proof. split; intros []; vm_compute; reflexivity. Qed.
