(** Property theorems in floating point that rest on rounding: C13, C14, C15, C21, C22, C25-C28, C52.
    [A] ranges over f32 and f64 on every platform, and exact reals. *)
From Coq Require Import Bool NArith ZArith Reals List.
From Verif Require Import Scalar Types Vector2 Vector3 Point2 Point3 Ray BoundingBox2 BoundingBox3 Float
  XReal Arith SpecOrder SpecFloat ExVals FloatGeom.
(** ** C13: the centre lies inside the box *)
Theorem C13_center_inside_2d : forall (A : arith) (b : BoundingBox2 (num A)),
  Ordered2 b -> BFinite2 b -> (forall d, Finite (bb2_extent b d)) -> bb2_is_inside b (bb2_center b) = true.
Proof. exact C13_center_inside_2d_pf. Qed.
Print Assumptions C13_center_inside_2d.
Theorem C13_center_inside_3d : forall (A : arith) (b : BoundingBox3 (num A)),
  Ordered3 b -> BFinite3 b -> (forall d, Finite (bb3_extent b d)) -> bb3_is_inside b (bb3_center b) = true.
Proof. exact C13_center_inside_3d_pf. Qed.
Print Assumptions C13_center_inside_3d.
Example C13_example_2d : Ordered2 boxA2 /\ BFinite2 boxA2 /\ (forall d, Finite (bb2_extent boxA2 d)) /\
  p2_eq (bb2_center boxA2) (mkPoint2 (d64 1 0) (d64 1 0)) = true.
Proof. repeat apply conj; try (intros []); vm_compute; reflexivity. Qed.
(* the hypothesis on the extents is needed: here the width overflows and the centre is at infinity *)
Definition wide_box2 : BoundingBox2 (num A64) := mkBB2 (mkPoint2 (nd64 1 1023) (d64 0 0)) (mkPoint2 (d64 1 1023) (d64 1 0)).
Theorem C13_overflow_center_outside : Ordered2 wide_box2 /\ BFinite2 wide_box2 /\ slt (bb2_extent wide_box2 D2X) sinf = false /\
  bb2_is_inside wide_box2 (bb2_center wide_box2) = false.
Proof. repeat apply conj; try (intros []); vm_compute; reflexivity. Qed.
Example C13_example_3d : Ordered3 boxA3 /\ BFinite3 boxA3 /\ (forall d, Finite (bb3_extent boxA3 d)) /\
  p3_eq (bb3_center boxA3) (mkPoint3 (d64 1 0) (d64 1 0) (d64 1 0)) = true.
Proof. repeat apply conj; try (intros []); vm_compute; reflexivity. Qed.
(** ** C14: extents *)
Theorem C14_extents_agree_2d : forall (A : arith) (b : BoundingBox2 (num A)),
  bb2_extent b D2X = bb2_width b /\ bb2_extent b D2Y = bb2_height b /\
  bb2_size b = (bb2_extent b D2X, bb2_extent b D2Y) /\
  (forall d, vcoord2 (bb2_diagonal b) d = bb2_extent b d) /\
  (forall d, bb2_extent b d = ssub (coord2 (bb2_max b) d) (coord2 (bb2_min b) d)).
Proof. exact C14_extents_agree_2d_pf. Qed.
Print Assumptions C14_extents_agree_2d.
Theorem C14_extents_agree_3d : forall (A : arith) (b : BoundingBox3 (num A)),
  bb3_extent b D3X = bb3_width b /\ bb3_extent b D3Y = bb3_height b /\ bb3_extent b D3Z = bb3_depth b /\
  bb3_size b = (bb3_extent b D3X, bb3_extent b D3Y, bb3_extent b D3Z) /\
  (forall d, vcoord3 (bb3_diagonal b) d = bb3_extent b d) /\
  (forall d, bb3_extent b d = ssub (coord3 (bb3_max b) d) (coord3 (bb3_min b) d)).
Proof. exact C14_extents_agree_3d_pf. Qed.
Print Assumptions C14_extents_agree_3d.
Theorem C14_extent_nonnegative_2d : forall (A : arith) (b : BoundingBox2 (num A)),
  Ordered2 b -> (forall d, NotNeg (bb2_extent b d)) /\ (BFinite2 b -> forall d, Le szero (bb2_extent b d)).
Proof. exact C14_extent_nonnegative_2d_pf. Qed.
Print Assumptions C14_extent_nonnegative_2d.
Theorem C14_extent_nonnegative_3d : forall (A : arith) (b : BoundingBox3 (num A)),
  Ordered3 b -> (forall d, NotNeg (bb3_extent b d)) /\ (BFinite3 b -> forall d, Le szero (bb3_extent b d)).
Proof. exact C14_extent_nonnegative_3d_pf. Qed.
Print Assumptions C14_extent_nonnegative_3d.
Theorem C14_extent_monotone_2d : forall (A : arith) (a b : BoundingBox2 (num A)) d,
  Ordered2 a -> Incl2 a b -> NoNaN (bb2_extent a d) -> NoNaN (bb2_extent b d) -> Le (bb2_extent a d) (bb2_extent b d).
Proof. exact C14_extent_monotone_2d_pf. Qed.
Print Assumptions C14_extent_monotone_2d.
Theorem C14_extent_monotone_3d : forall (A : arith) (a b : BoundingBox3 (num A)) d,
  Ordered3 a -> Incl3 a b -> NoNaN (bb3_extent a d) -> NoNaN (bb3_extent b d) -> Le (bb3_extent a d) (bb3_extent b d).
Proof. exact C14_extent_monotone_3d_pf. Qed.
Print Assumptions C14_extent_monotone_3d.
(** ** C15: area, surface area and volume *)
Theorem C15_area_float : forall (A : arith) (b : BoundingBox2 (num A)),
  bb2_area b = smul (bb2_extent b D2X) (bb2_extent b D2Y) /\ (Ordered2 b -> NotNeg (bb2_area b)).
Proof. exact C15_area_float_pf. Qed.
Print Assumptions C15_area_float.
Theorem C15_volume_surface_float : forall (A : arith) (b : BoundingBox3 (num A)),
  let w := bb3_extent b D3X in let h := bb3_extent b D3Y in let d := bb3_extent b D3Z in
  bb3_volume b = smul (smul w h) d /\
  bb3_surface_area b = smul stwo (sadd (sadd (smul w h) (smul w d)) (smul h d)) /\
  (Ordered3 b -> NotNeg (bb3_volume b) /\ NotNeg (bb3_surface_area b)).
Proof. exact C15_volume_surface_float_pf. Qed.
Print Assumptions C15_volume_surface_float.
Theorem C15_area_monotone_float : forall (A : arith) (a b : BoundingBox2 (num A)),
  Ordered2 a -> Incl2 a b -> NoNaN (bb2_area a) -> NoNaN (bb2_area b) -> Le (bb2_area a) (bb2_area b).
Proof. exact C15_area_monotone_float_pf. Qed.
Print Assumptions C15_area_monotone_float.
Theorem C15_volume_surface_monotone_float : forall (A : arith) (a b : BoundingBox3 (num A)), Ordered3 a -> Incl3 a b ->
  (NoNaN (bb3_volume a) -> NoNaN (bb3_volume b) -> Le (bb3_volume a) (bb3_volume b)) /\
  (NoNaN (bb3_surface_area a) -> NoNaN (bb3_surface_area b) -> Le (bb3_surface_area a) (bb3_surface_area b)).
Proof. exact C15_volume_surface_monotone_float_pf. Qed.
Print Assumptions C15_volume_surface_monotone_float.
Example C15_example : Ordered2 boxA2 /\ Incl2 boxA2 boxA2 /\ NoNaN (bb2_area boxA2) /\ Eqs (bb2_area boxA2) (d64 8 0) /\
  Ordered3 boxA3 /\ NoNaN (bb3_volume boxA3) /\ Eqs (bb3_volume boxA3) (d64 48 0) /\ Eqs (bb3_surface_area boxA3) (d64 88 0).
Proof. repeat apply conj; try (intros p H; exact H); try (intros []); vm_compute; reflexivity. Qed.
(** ** C21: cross product *)
Theorem C21_cross_anticommutative_float : forall (A : arith) (a b : Vector3 (num A)) (d : Dimension3),
  NoNaN (vcoord3 (v3_cross a b) d) -> Eqs (vcoord3 (v3_cross a b) d) (vcoord3 (v3_neg (v3_cross b a)) d).
Proof. exact C21_cross_anticommutative_float_pf. Qed.
Print Assumptions C21_cross_anticommutative_float.
Example C21_example_float : let a := mkVector3 (d64 1 0) (d64 2 0) (d64 3 0) in let b := mkVector3 (d64 1 0) (d64 1 0) (nd64 1 (-1)) in
  VNoNaN3 (v3_cross a b) /\ v3_eq (v3_cross a b) (mkVector3 (nd64 4 0) (d64 7 (-1)) (nd64 1 0)) = true.
Proof. split; [intros []|]; vm_compute; reflexivity. Qed.
(** ** C22: length *)
Theorem C22_length_float_2d : forall (A : arith) (v : Vector2 (num A)), NotNeg (v2_length v) /\ v2_length (v2_neg v) = v2_length v.
Proof. exact C22_length_float_2d_pf. Qed.
Print Assumptions C22_length_float_2d.
Theorem C22_length_float_3d : forall (A : arith) (v : Vector3 (num A)), NotNeg (v3_length v) /\ v3_length (v3_neg v) = v3_length v.
Proof. exact C22_length_float_3d_pf. Qed.
Print Assumptions C22_length_float_3d.
(** ** C25: relative length *)
Theorem C25_relative_length_float_2d : forall (A : arith) (a b : Vector2 (num A)),
  (Lt (v2_length a) (v2_length b) -> v2_is_shorter_than a b = true /\ v2_is_longer_than b a = true) /\
  v2_is_longer_than a b = v2_is_shorter_than b a /\
  (v2_shortest a b = a \/ v2_shortest a b = b) /\ (v2_longest a b = a \/ v2_longest a b = b) /\
  (NoNaN (v2_dot a a) -> NoNaN (v2_dot b b) ->
   Le (v2_length (v2_shortest a b)) (v2_length a) /\ Le (v2_length (v2_shortest a b)) (v2_length b) /\
   Le (v2_length a) (v2_length (v2_longest a b)) /\ Le (v2_length b) (v2_length (v2_longest a b))).
Proof. exact C25_relative_length_float_2d_pf. Qed.
Print Assumptions C25_relative_length_float_2d.
Theorem C25_relative_length_float_3d : forall (A : arith) (a b : Vector3 (num A)),
  (Lt (v3_length a) (v3_length b) -> v3_is_shorter_than a b = true /\ v3_is_longer_than b a = true) /\
  v3_is_longer_than a b = v3_is_shorter_than b a /\
  (v3_shortest a b = a \/ v3_shortest a b = b) /\ (v3_longest a b = a \/ v3_longest a b = b) /\
  (NoNaN (v3_dot a a) -> NoNaN (v3_dot b b) ->
   Le (v3_length (v3_shortest a b)) (v3_length a) /\ Le (v3_length (v3_shortest a b)) (v3_length b) /\
   Le (v3_length a) (v3_length (v3_longest a b)) /\ Le (v3_length b) (v3_length (v3_longest a b))).
Proof. exact C25_relative_length_float_3d_pf. Qed.
Print Assumptions C25_relative_length_float_3d.
(** ** C26: scalars *)
Theorem C26_scalar_length : forall (A : arith) (s t : num A),
  s_length s = sabs s /\ NotNeg (s_length s) /\ s_length (sneg s) = s_length s /\
  (s_shortest s t = s \/ s_shortest s t = t) /\ (s_longest s t = s \/ s_longest s t = t) /\
  (NoNaN s -> NoNaN t ->
   Le (s_length (s_shortest s t)) (s_length s) /\ Le (s_length (s_shortest s t)) (s_length t) /\
   Le (s_length s) (s_length (s_longest s t)) /\ Le (s_length t) (s_length (s_longest s t)) /\
   (s_is_shorter_than s t = true <-> Lt (s_length s) (s_length t)) /\ s_is_longer_than s t = s_is_shorter_than t s).
Proof. exact C26_scalar_length_pf. Qed.
Print Assumptions C26_scalar_length.
Theorem C26_scalar_distance : forall (A : arith) (p s t : num A),
  s_distance p s = sabs (ssub s p) /\ NotNeg (s_distance p s) /\ s_distance p s = s_distance s p /\
  (s_closest p s t = s \/ s_closest p s t = t) /\ (s_farthest p s t = s \/ s_farthest p s t = t) /\
  (NoNaN (s_distance p s) -> NoNaN (s_distance p t) ->
   Le (s_distance p (s_closest p s t)) (s_distance p s) /\ Le (s_distance p (s_closest p s t)) (s_distance p t) /\
   Le (s_distance p s) (s_distance p (s_farthest p s t)) /\ Le (s_distance p t) (s_distance p (s_farthest p s t)) /\
   (s_is_closer_to p s t = true <-> Lt (s_distance p s) (s_distance p t)) /\ s_is_farther_from p s t = s_is_closer_to p t s).
Proof. exact C26_scalar_distance_pf. Qed.
Print Assumptions C26_scalar_distance.
Example C26_example : Eqs (s_closest (d64 1 0) (d64 3 0) (d64 0 0)) (d64 0 0) /\ Eqs (s_farthest (d64 1 0) (d64 3 0) (d64 0 0)) (d64 3 0) /\
  Eqs (s_shortest (nd64 3 0) (d64 2 0)) (d64 2 0) /\ Eqs (s_longest (nd64 3 0) (d64 2 0)) (nd64 3 0) /\ NoNaN (s_distance (d64 1 0) (d64 3 0)).
Proof. repeat apply conj; vm_compute; reflexivity. Qed.
(** ** C27: distance *)
Theorem C27_distance_float_2d : forall (A : arith) (p q : Point2 (num A)), p2_distance p q = p2_distance q p /\ NotNeg (p2_distance p q).
Proof. exact C27_distance_float_2d_pf. Qed.
Print Assumptions C27_distance_float_2d.
Theorem C27_distance_float_3d : forall (A : arith) (p q : Point3 (num A)), p3_distance p q = p3_distance q p /\ NotNeg (p3_distance p q).
Proof. exact C27_distance_float_3d_pf. Qed.
Print Assumptions C27_distance_float_3d.
Theorem C28_relative_distance_float_2d : forall (A : arith) (p a b : Point2 (num A)),
  (Lt (p2_distance p a) (p2_distance p b) -> p2_is_closer_to p a b = true /\ p2_is_farther_from p b a = true) /\
  p2_is_farther_from p a b = p2_is_closer_to p b a /\
  (p2_closest p a b = a \/ p2_closest p a b = b) /\ (p2_farthest p a b = a \/ p2_farthest p a b = b) /\
  (NoNaN (p2_distance p a) -> NoNaN (p2_distance p b) ->
   Le (p2_distance p (p2_closest p a b)) (p2_distance p a) /\ Le (p2_distance p (p2_closest p a b)) (p2_distance p b) /\
   Le (p2_distance p a) (p2_distance p (p2_farthest p a b)) /\ Le (p2_distance p b) (p2_distance p (p2_farthest p a b))).
Proof. exact C28_relative_distance_float_2d_pf. Qed.
Print Assumptions C28_relative_distance_float_2d.
Theorem C28_relative_distance_float_3d : forall (A : arith) (p a b : Point3 (num A)),
  (Lt (p3_distance p a) (p3_distance p b) -> p3_is_closer_to p a b = true /\ p3_is_farther_from p b a = true) /\
  p3_is_farther_from p a b = p3_is_closer_to p b a /\
  (p3_closest p a b = a \/ p3_closest p a b = b) /\ (p3_farthest p a b = a \/ p3_farthest p a b = b) /\
  (NoNaN (p3_distance p a) -> NoNaN (p3_distance p b) ->
   Le (p3_distance p (p3_closest p a b)) (p3_distance p a) /\ Le (p3_distance p (p3_closest p a b)) (p3_distance p b) /\
   Le (p3_distance p a) (p3_distance p (p3_farthest p a b)) /\ Le (p3_distance p b) (p3_distance p (p3_farthest p a b))).
Proof. exact C28_relative_distance_float_3d_pf. Qed.
Print Assumptions C28_relative_distance_float_3d.
Example C28_example_float : let p := mkPoint3 (d64 0 0) (d64 0 0) (d64 0 0) in
  p3_eq (p3_closest p ptA3 ptB3) ptA3 = true /\ p3_eq (p3_farthest p ptA3 ptB3) ptB3 = true /\ NoNaN (p3_distance p ptA3) /\ NoNaN (p3_distance p ptB3) /\
  Lt (p3_distance p ptA3) (p3_distance p ptB3).
Proof. repeat apply conj; vm_compute; reflexivity. Qed.
(** ** C52: evaluating a ray at 0 *)
Theorem C52_at_zero_is_origin_2d : forall (A : arith) (r : Ray2 (num A)),
  NoNaN2 (r2_origin r) -> VFinite2 (r2_direction r) -> PEq2 (r2_at r szero) (r2_origin r).
Proof. exact C52_at_zero_is_origin_2d_pf. Qed.
Print Assumptions C52_at_zero_is_origin_2d.
Theorem C52_at_zero_is_origin_3d : forall (A : arith) (r : Ray3 (num A)),
  NoNaN3 (r3_origin r) -> VFinite3 (r3_direction r) -> PEq3 (r3_at r szero) (r3_origin r).
Proof. exact C52_at_zero_is_origin_3d_pf. Qed.
Print Assumptions C52_at_zero_is_origin_3d.
Example C52_example_float : NoNaN2 (r2_origin rayA2) /\ VFinite2 (r2_direction rayA2) /\ p2_eq (r2_at rayA2 (d64 4 0)) (mkPoint2 (d64 3 0) (d64 1 0)) = true.
Proof. repeat apply conj; try (intros []); vm_compute; reflexivity. Qed.
