(** Theorems: C75 (axis symmetry of boxes and the ray-box test). *)
From Coq Require Import Bool NArith ZArith Reals List.
From Verif Require Import Scalar Types Vector2 Vector3 Point2 Point3 Ray BoundingBox2 BoundingBox3 Transform2 Transform3 Float
  XReal Arith SpecOrder SpecStruct SpecFloat SpecSame ExVals FloatSym.
(** ** C75: mirroring any set of axes (box, ray origin and ray direction together) *)
Theorem C75_mirror_2d : forall (f : format) (P : platform f) (flip : Dimension2 -> bool) (b b' : BoundingBox2 (num (IEEE f P))) (r r' : Ray2 (num (IEEE f P))),
  (forall d, if flip d
     then coord2 (bb2_min b') d = sneg (coord2 (bb2_max b) d) /\ coord2 (bb2_max b') d = sneg (coord2 (bb2_min b) d) /\
          coord2 (r2_origin r') d = sneg (coord2 (r2_origin r) d) /\ vcoord2 (r2_direction r') d = sneg (vcoord2 (r2_direction r) d)
     else coord2 (bb2_min b') d = coord2 (bb2_min b) d /\ coord2 (bb2_max b') d = coord2 (bb2_max b) d /\
          coord2 (r2_origin r') d = coord2 (r2_origin r) d /\ vcoord2 (r2_direction r') d = vcoord2 (r2_direction r) d) ->
  match bb2_intersect_ray b' r', bb2_intersect_ray b r with
  | Some (s', e'), Some (s, e) => Same s' s /\ Same e' e | None, None => True | _, _ => False end.
Proof. exact C75_mirror_2d_pf. Qed.
Print Assumptions C75_mirror_2d.
Theorem C75_mirror_3d : forall (f : format) (P : platform f) (flip : Dimension3 -> bool) (b b' : BoundingBox3 (num (IEEE f P))) (r r' : Ray3 (num (IEEE f P))),
  (forall d, if flip d
     then coord3 (bb3_min b') d = sneg (coord3 (bb3_max b) d) /\ coord3 (bb3_max b') d = sneg (coord3 (bb3_min b) d) /\
          coord3 (r3_origin r') d = sneg (coord3 (r3_origin r) d) /\ vcoord3 (r3_direction r') d = sneg (vcoord3 (r3_direction r) d)
     else coord3 (bb3_min b') d = coord3 (bb3_min b) d /\ coord3 (bb3_max b') d = coord3 (bb3_max b) d /\
          coord3 (r3_origin r') d = coord3 (r3_origin r) d /\ vcoord3 (r3_direction r') d = vcoord3 (r3_direction r) d) ->
  match bb3_intersect_ray b' r', bb3_intersect_ray b r with
  | Some (s', e'), Some (s, e) => Same s' s /\ Same e' e | None, None => True | _, _ => False end.
Proof. exact C75_mirror_3d_pf. Qed.
Print Assumptions C75_mirror_3d.
(** ** renaming the axes: permute applied to the box and to the ray *)
Theorem C75_permute_2d : forall (A : arith) (b : BoundingBox2 (num A)) (r : Ray2 (num A)),
  let pp p := p2_permute p D2Y D2X in let pv v := v2_permute v D2Y D2X in
  match bb2_intersect_ray (mkBB2 (pp (bb2_min b)) (pp (bb2_max b))) (mkRay2 (pp (r2_origin r)) (pv (r2_direction r))), bb2_intersect_ray b r with
  | Some (s', e'), Some (s, e) => Same s' s /\ Same e' e | None, None => True | _, _ => False end.
Proof. exact C75_permute_2d_pf. Qed.
Print Assumptions C75_permute_2d.
Theorem C75_permute_3d : forall (A : arith) (b : BoundingBox3 (num A)) (r : Ray3 (num A)) (i j k : Dimension3), i <> j -> i <> k -> j <> k ->
  let pp p := p3_permute p i j k in let pv v := v3_permute v i j k in
  match bb3_intersect_ray (mkBB3 (pp (bb3_min b)) (pp (bb3_max b))) (mkRay3 (pp (r3_origin r)) (pv (r3_direction r))), bb3_intersect_ray b r with
  | Some (s', e'), Some (s, e) => Same s' s /\ Same e' e | None, None => True | _, _ => False end.
Proof. exact C75_permute_3d_pf. Qed.
Print Assumptions C75_permute_3d.
(* a hit whose mirror image in the x axis is also a hit, with the same parameters *)
Example C75_example : let b := mkBB2 (mkPoint2 (d64 1 0) (nd64 1 0)) (mkPoint2 (d64 3 0) (d64 1 0)) : BoundingBox2 (num A64) in
  let r := mkRay2 (mkPoint2 (d64 0 0) (d64 0 0)) (mkVector2 (d64 1 0) (d64 1 (-2))) : Ray2 (num A64) in
  let b' := mkBB2 (mkPoint2 (sneg (d64 3 0)) (nd64 1 0)) (mkPoint2 (sneg (d64 1 0)) (d64 1 0)) : BoundingBox2 (num A64) in
  let r' := mkRay2 (mkPoint2 (sneg (d64 0 0)) (d64 0 0)) (mkVector2 (sneg (d64 1 0)) (d64 1 (-2))) : Ray2 (num A64) in
  let hit o := match o with Some (s, e) => seq s (d64 1 0) && seq e (d64 3 0) | None => false end in hit (bb2_intersect_ray b r) = true /\ hit (bb2_intersect_ray b' r') = true.
Proof. split; vm_compute; reflexivity. Qed.
