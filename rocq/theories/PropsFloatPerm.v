(** Theorems: C88 (axis permutations and axis-aligned cameras are exact).
    [A] ranges over f32 and f64 on every platform, and exact reals (where unit_roundoff and min_subnormal are 0). *)
From Coq Require Import Bool NArith ZArith Reals List Lra Lia.
From Verif Require Import Scalar Types Vector2 Vector3 Point2 Point3 Transform2 Transform3 Float
  XReal Arith SpecOrder SpecFloat SpecReal SpecErr SpecPerm ExVals FloatErr FloatAxis FloatPerm.
Import ListNotations.
Local Open Scope R_scope.
(** a matrix that permutes and mirrors the axes and translates: try_from succeeds; vectors are mapped exactly, both ways; points with one rounding *)
Theorem C88_signed_permutation_2d : forall (A : arith) (m : Matrix3x3 (num A)) (s : Dimension2 -> Dimension2) (n : Dimension2 -> bool), SignedPerm2 m s n -> (forall i, Finite (etr2 m i)) ->
  exists t, t2_try_from m = Ok t /\
  (forall v i, VFinite2 v -> Eqs (vcoord2 (t2_transform_vector t v) i) (signed (n i) (vcoord2 v (s i)))) /\
  (forall v i, VFinite2 v -> Eqs (vcoord2 (t2_transform_vector (t2_inverse t) v) (s i)) (signed (n i) (vcoord2 v i))) /\
  (forall p i, Finite2 p -> Eqs (coord2 (t2_transform_point t p) i) (sadd (signed (n i) (coord2 p (s i))) (etr2 m i))) /\
  (forall p i, Finite2 p -> Eqs (coord2 (t2_transform_point (t2_inverse t) p) (s i)) (signed (n i) (ssub (coord2 p i) (etr2 m i)))).
Proof. exact C88_signed_permutation_2d_pf. Qed.
Print Assumptions C88_signed_permutation_2d.
Theorem C88_signed_permutation_3d : forall (A : arith) (prof : profile) (m : Matrix4x4 (num A)) (s : Dimension3 -> Dimension3) (n : Dimension3 -> bool), SignedPerm3 m s n -> (forall i, Finite (etr3 m i)) ->
  exists t, t3_try_from prof m = Ret (Ok t) /\
  (forall v i, VFinite3 v -> Eqs (vcoord3 (t3_transform_vector t v) i) (signed (n i) (vcoord3 v (s i)))) /\
  (forall v i, VFinite3 v -> Eqs (vcoord3 (t3_transform_vector (t3_inverse t) v) (s i)) (signed (n i) (vcoord3 v i))) /\
  (forall p i, Finite3 p -> Eqs (coord3 (t3_transform_point t p) i) (sadd (signed (n i) (coord3 p (s i))) (etr3 m i))) /\
  (forall p i, Finite3 p -> Eqs (coord3 (t3_transform_point (t3_inverse t) p) (s i)) (signed (n i) (ssub (coord3 p i) (etr3 m i)))).
Proof. exact C88_signed_permutation_3d_pf. Qed.
Print Assumptions C88_signed_permutation_3d.
(** a camera looking along an axis, with up along another: look_at succeeds and its coordinates are the differences to the eye, with no rounding but that of the difference *)
Theorem C88_axis_camera : forall (A : arith) (prof : profile) (from target : Point3 (num A)) (up : Vector3 (num A)) (z u : saxis), fst z <> fst u -> Finite3 from ->
  (forall d, d <> fst z -> Eqs (coord3 target d) (coord3 from d)) ->
  (if snd z then Lt (coord3 target (fst z)) (coord3 from (fst z)) else Lt (coord3 from (fst z)) (coord3 target (fst z))) ->
  (forall d, d <> fst u -> Eqs (vcoord3 up d) szero) -> Lt szero (along up u) ->
  (let w := p3_sub target from in Finite (v3_dot w w) /\ min_subnormal A <= unit_roundoff A * real_of (v3_dot w w)) ->
  Finite (v3_dot up up) -> min_subnormal A <= unit_roundoff A * real_of (v3_dot up up) ->
  let x := saxis_cross u z in
  exists t, t3_look_at prof from target up = Ret (Ok t) /\
  (forall v, VFinite3 v -> VEq3 (t3_transform_vector t v) (mkVector3 (along v x) (along v u) (along v z))) /\
  (forall p, Finite3 p -> PEq3 (t3_transform_point t p) (let c a := signed (snd a) (ssub (coord3 p (fst a)) (coord3 from (fst a))) in mkPoint3 (c x) (c u) (c z))) /\
  (forall v, VFinite3 v -> let v' := t3_transform_vector (t3_inverse t) v in
     Eqs (along v' x) (v3x v) /\ Eqs (along v' u) (v3y v) /\ Eqs (along v' z) (v3z v)) /\
  (forall q, Finite3 q -> let q' := t3_transform_point (t3_inverse t) q in let c a r := Eqs (coord3 q' (fst a)) (sadd (signed (snd a) r) (coord3 from (fst a))) in
     c x (p3x q) /\ c u (p3y q) /\ c z (p3z q)).
Proof. exact C88_axis_camera_pf. Qed.
Print Assumptions C88_axis_camera.
(* [saxis_cross] is the cross product of the unit vectors along the signed axes *)
Theorem C88_saxis_cross_is_cross : forall a b : saxis, fst a <> fst b -> saxis_vec (saxis_cross a b) =
  let v := saxis_vec a in let w := saxis_vec b in mkVector3 (v3y v * v3z w - v3z v * v3y w) (v3z v * v3x w - v3x v * v3z w) (v3x v * v3y w - v3y v * v3x w).
Proof. intros [[] []] [[] []] N; cbn in N; try congruence; cbn; f_equal; lra. Qed.
Print Assumptions C88_saxis_cross_is_cross.
(* the hypotheses are met: a camera at (0.1, 2, 3) looking along -x, up along z; a quarter turn about z with a mirrored z axis and a translation *)
Example C88_example : let from := mkPoint3 (d64 3602879701896397 (-55)) (d64 2 0) (d64 3 0) : Point3 (num A64) in let target := mkPoint3 (nd64 5 0) (d64 2 0) (d64 3 0) in let up := mkVector3 (d64 0 0) (nd64 0 0) (d64 7 0) in
  let z := (D3X, true) in let u := (D3Z, false) in let w := p3_sub target from in
  fst z <> fst u /\ Finite3 from /\ (forall d, d <> fst z -> Eqs (coord3 target d) (coord3 from d)) /\ Lt (coord3 target (fst z)) (coord3 from (fst z)) /\
  (forall d, d <> fst u -> Eqs (vcoord3 up d) szero) /\ Lt szero (along up u) /\ Finite (v3_dot w w) /\ min_subnormal A64 <= unit_roundoff A64 * real_of (v3_dot w w) /\
  Finite (v3_dot up up) /\ min_subnormal A64 <= unit_roundoff A64 * real_of (v3_dot up up) /\ saxis_cross u z = (D3Y, true).
Proof.
  cbv zeta. split; [discriminate|]. conjs; try (apply dot_ge_1_ok; vm_compute; reflexivity); try (intros []; intros; cbn in *; try congruence); vm_compute; reflexivity.
Qed.
Example C88_example_perm : let m := mkM4 (d64 0 0) (nd64 1 0) (d64 0 0) (d64 3602879701896397 (-55)) (d64 1 0) (nd64 0 0) (d64 0 0) (d64 2 0) (d64 0 0) (d64 0 0) (nd64 1 0) (d64 7 0) (d64 0 0) (d64 0 0) (d64 0 0) (d64 1 0) : Matrix4x4 (num A64) in
  SignedPerm3 m (fun i => match i with D3X => D3Y | D3Y => D3X | D3Z => D3Z end) (fun i => match i with D3X => true | D3Y => false | D3Z => true end) /\ (forall i, Finite (etr3 m i)).
Proof.
  cbv zeta. split; [split; [intros [] []; intros; try reflexivity; discriminate|]; conjs; try (intros []; intros; try (destruct j; try congruence)); try (vm_compute; reflexivity) | intros []; vm_compute; reflexivity].
  all: try (intros [] []; intros H; try congruence; vm_compute; reflexivity).
Qed.
