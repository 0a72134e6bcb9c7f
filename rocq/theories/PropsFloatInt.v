(** Property theorems: element-wise floor, ceil, round, trunc, fract and abs (C33), for f32, f64 and exact reals. *)
From Coq Require Import Bool NArith ZArith Reals List.
From Verif Require Import Scalar Types Vector2 Vector3 Point2 Point3 Float XReal Arith SpecOrder SpecFloat ExVals FloatInt.
Local Open Scope R_scope.
(** ** C33: element-wise operations, one theorem for points and one for vectors *)
Theorem C33_point_elementwise_2d : forall (A : arith) (p : Point2 (num A)) d r, RealVal (coord2 p d) r ->
  (exists n, RealVal (coord2 (p2_floor p) d) (IZR n) /\ floor_of r n) /\
  (exists n, RealVal (coord2 (p2_ceil p) d) (IZR n) /\ ceil_of r n) /\
  (exists n, RealVal (coord2 (p2_round p) d) (IZR n) /\ round_of r n) /\
  (exists n, RealVal (coord2 (p2_trunc p) d) (IZR n) /\ trunc_of r n /\
     (* fract = x - trunc x without rounding, |fract| < 1, sign of x; trunc + fract == x *)
     RealVal (coord2 (p2_fract p) d) (r - IZR n) /\ Rabs (r - IZR n) < 1 /\ 0 <= (r - IZR n) * r /\
     Eqs (sadd (coord2 (p2_trunc p) d) (coord2 (p2_fract p) d)) (coord2 p d)) /\
  RealVal (coord2 (p2_abs p) d) (Rabs r).
Proof. exact C33_point_elementwise_2d_pf. Qed.
Print Assumptions C33_point_elementwise_2d.
Theorem C33_point_elementwise_3d : forall (A : arith) (p : Point3 (num A)) d r, RealVal (coord3 p d) r ->
  (exists n, RealVal (coord3 (p3_floor p) d) (IZR n) /\ floor_of r n) /\
  (exists n, RealVal (coord3 (p3_ceil p) d) (IZR n) /\ ceil_of r n) /\
  (exists n, RealVal (coord3 (p3_round p) d) (IZR n) /\ round_of r n) /\
  (exists n, RealVal (coord3 (p3_trunc p) d) (IZR n) /\ trunc_of r n /\
     (* fract = x - trunc x without rounding, |fract| < 1, sign of x; trunc + fract == x *)
     RealVal (coord3 (p3_fract p) d) (r - IZR n) /\ Rabs (r - IZR n) < 1 /\ 0 <= (r - IZR n) * r /\
     Eqs (sadd (coord3 (p3_trunc p) d) (coord3 (p3_fract p) d)) (coord3 p d)) /\
  RealVal (coord3 (p3_abs p) d) (Rabs r).
Proof. exact C33_point_elementwise_3d_pf. Qed.
Print Assumptions C33_point_elementwise_3d.
Theorem C33_vector_elementwise_2d : forall (A : arith) (v : Vector2 (num A)) d r, RealVal (vcoord2 v d) r ->
  (exists n, RealVal (vcoord2 (v2_floor v) d) (IZR n) /\ floor_of r n) /\
  (exists n, RealVal (vcoord2 (v2_ceil v) d) (IZR n) /\ ceil_of r n) /\
  (exists n, RealVal (vcoord2 (v2_round v) d) (IZR n) /\ round_of r n) /\
  (exists n, RealVal (vcoord2 (v2_trunc v) d) (IZR n) /\ trunc_of r n /\
     RealVal (vcoord2 (v2_fract v) d) (r - IZR n) /\ Rabs (r - IZR n) < 1 /\ 0 <= (r - IZR n) * r /\
     Eqs (sadd (vcoord2 (v2_trunc v) d) (vcoord2 (v2_fract v) d)) (vcoord2 v d)) /\
  RealVal (vcoord2 (v2_abs v) d) (Rabs r).
Proof. exact C33_vector_elementwise_2d_pf. Qed.
Print Assumptions C33_vector_elementwise_2d.
Theorem C33_vector_elementwise_3d : forall (A : arith) (v : Vector3 (num A)) d r, RealVal (vcoord3 v d) r ->
  (exists n, RealVal (vcoord3 (v3_floor v) d) (IZR n) /\ floor_of r n) /\
  (exists n, RealVal (vcoord3 (v3_ceil v) d) (IZR n) /\ ceil_of r n) /\
  (exists n, RealVal (vcoord3 (v3_round v) d) (IZR n) /\ round_of r n) /\
  (exists n, RealVal (vcoord3 (v3_trunc v) d) (IZR n) /\ trunc_of r n /\
     RealVal (vcoord3 (v3_fract v) d) (r - IZR n) /\ Rabs (r - IZR n) < 1 /\ 0 <= (r - IZR n) * r /\
     Eqs (sadd (vcoord3 (v3_trunc v) d) (vcoord3 (v3_fract v) d)) (vcoord3 v d)) /\
  RealVal (vcoord3 (v3_abs v) d) (Rabs r).
Proof. exact C33_vector_elementwise_3d_pf. Qed.
Print Assumptions C33_vector_elementwise_3d.
Theorem C33_integers_are_unique : forall (r : R) (n m : Z), (floor_of r n -> floor_of r m -> n = m) /\ (ceil_of r n -> ceil_of r m -> n = m) /\
  (round_of r n -> round_of r m -> n = m) /\ (trunc_of r n -> trunc_of r m -> n = m).
Proof. exact C33_integers_are_unique_pf. Qed.
Print Assumptions C33_integers_are_unique.
Example C33_example : let v := mkVector2 (nd64 5 (-1)) (d64 7 (-2)) in   (* (-2.5, 1.75) *)
  v2_eq (v2_floor v) (mkVector2 (nd64 3 0) (d64 1 0)) = true /\ v2_eq (v2_ceil v) (mkVector2 (nd64 2 0) (d64 2 0)) = true /\
  v2_eq (v2_round v) (mkVector2 (nd64 3 0) (d64 2 0)) = true /\ v2_eq (v2_trunc v) (mkVector2 (nd64 2 0) (d64 1 0)) = true /\
  v2_eq (v2_fract v) (mkVector2 (nd64 1 (-1)) (d64 3 (-2))) = true /\ (exists r, RealVal (vcoord2 v D2X) r).
Proof. cbv zeta. repeat apply conj; try (vm_compute; reflexivity). eexists. split; reflexivity. Qed.
