(** Theorems: C98 (comparisons of lengths and distances are right unless these are nearly equal).
    [A] ranges over f32 and f64 on every platform, and exact reals extended with infinities and NaN. *)
From Coq Require Import Bool NArith ZArith Reals List Lia Lra.
From Flocq Require Import Core.Defs IEEE754.BinarySingleNaN.
From Verif Require Import Scalar Types Vector2 Vector3 Point2 Point3 Float XReal Arith SpecOrder SpecFloat SpecErr SpecReal ExVals FloatCmp.
Local Open Scope R_scope.
(** * C98: a vector that is shorter by a relative margin of 9 roundoffs in the squares is reported as shorter, and picked *)
Theorem C98_shorter_2d : forall (A : arith) (a b : Vector2 (num A)), VFinite2 b -> Finite (v2_dot a a) ->
  (1 + 9 * unit_roundoff A) * Rnorm2 (RV2 a) ^ 2 + 7 * min_subnormal A < Rnorm2 (RV2 b) ^ 2 ->
  v2_is_shorter_than a b = true /\ v2_is_shorter_than b a = false /\ v2_is_longer_than b a = true /\ v2_is_longer_than a b = false /\
  v2_shortest a b = a /\ v2_shortest b a = a /\ v2_longest a b = b /\ v2_longest b a = b.
Proof. exact C98_shorter_2d_pf. Qed.
Print Assumptions C98_shorter_2d.
Theorem C98_shorter_3d : forall (A : arith) (a b : Vector3 (num A)), VFinite3 b -> Finite (v3_dot a a) ->
  (1 + 9 * unit_roundoff A) * Rnorm3 (RV3 a) ^ 2 + 7 * min_subnormal A < Rnorm3 (RV3 b) ^ 2 ->
  v3_is_shorter_than a b = true /\ v3_is_shorter_than b a = false /\ v3_is_longer_than b a = true /\ v3_is_longer_than a b = false /\
  v3_shortest a b = a /\ v3_shortest b a = a /\ v3_longest a b = b /\ v3_longest b a = b.
Proof. exact C98_shorter_3d_pf. Qed.
Print Assumptions C98_shorter_3d.
(** * whatever the answer, the picked vector is the shorter (longer) one up to that margin *)
Theorem C98_shortest_nearly_2d : forall (A : arith) (a b v : Vector2 (num A)), Finite (v2_dot a a) -> Finite (v2_dot b b) -> v = a \/ v = b ->
  let sq w := Rnorm2 (RV2 w) ^ 2 in let u := unit_roundoff A in let t := min_subnormal A in
  sq (v2_shortest a b) <= (1 + 9 * u) * sq v + 7 * t /\ sq v <= (1 + 9 * u) * sq (v2_longest a b) + 7 * t.
Proof. exact C98_shortest_nearly_2d_pf. Qed.
Print Assumptions C98_shortest_nearly_2d.
Theorem C98_shortest_nearly_3d : forall (A : arith) (a b v : Vector3 (num A)), Finite (v3_dot a a) -> Finite (v3_dot b b) -> v = a \/ v = b ->
  let sq w := Rnorm3 (RV3 w) ^ 2 in let u := unit_roundoff A in let t := min_subnormal A in
  sq (v3_shortest a b) <= (1 + 9 * u) * sq v + 7 * t /\ sq v <= (1 + 9 * u) * sq (v3_longest a b) + 7 * t.
Proof. exact C98_shortest_nearly_3d_pf. Qed.
Print Assumptions C98_shortest_nearly_3d.
(** * the same for distances from a point, with a margin of 15 roundoffs *)
Theorem C98_closer_2d : forall (A : arith) (p a b : Point2 (num A)), Finite2 p -> Finite2 b -> Finite (v2_dot (p2_sub a p) (p2_sub a p)) ->
  (1 + 15 * unit_roundoff A) * Rdist2 (RP2 p) (RP2 a) ^ 2 + 7 * min_subnormal A < Rdist2 (RP2 p) (RP2 b) ^ 2 ->
  p2_is_closer_to p a b = true /\ p2_is_closer_to p b a = false /\ p2_is_farther_from p b a = true /\ p2_is_farther_from p a b = false /\
  p2_closest p a b = a /\ p2_closest p b a = a /\ p2_farthest p a b = b /\ p2_farthest p b a = b.
Proof. exact C98_closer_2d_pf. Qed.
Print Assumptions C98_closer_2d.
Theorem C98_closer_3d : forall (A : arith) (p a b : Point3 (num A)), Finite3 p -> Finite3 b -> Finite (v3_dot (p3_sub a p) (p3_sub a p)) ->
  (1 + 15 * unit_roundoff A) * Rdist3 (RP3 p) (RP3 a) ^ 2 + 7 * min_subnormal A < Rdist3 (RP3 p) (RP3 b) ^ 2 ->
  p3_is_closer_to p a b = true /\ p3_is_closer_to p b a = false /\ p3_is_farther_from p b a = true /\ p3_is_farther_from p a b = false /\
  p3_closest p a b = a /\ p3_closest p b a = a /\ p3_farthest p a b = b /\ p3_farthest p b a = b.
Proof. exact C98_closer_3d_pf. Qed.
Print Assumptions C98_closer_3d.
Theorem C98_closest_nearly_2d : forall (A : arith) (p a b c : Point2 (num A)), Finite (v2_dot (p2_sub a p) (p2_sub a p)) -> Finite (v2_dot (p2_sub b p) (p2_sub b p)) -> c = a \/ c = b ->
  let sq x := Rdist2 (RP2 p) (RP2 x) ^ 2 in let u := unit_roundoff A in let t := min_subnormal A in
  sq (p2_closest p a b) <= (1 + 15 * u) * sq c + 7 * t /\ sq c <= (1 + 15 * u) * sq (p2_farthest p a b) + 7 * t.
Proof. exact C98_closest_nearly_2d_pf. Qed.
Print Assumptions C98_closest_nearly_2d.
Theorem C98_closest_nearly_3d : forall (A : arith) (p a b c : Point3 (num A)), Finite (v3_dot (p3_sub a p) (p3_sub a p)) -> Finite (v3_dot (p3_sub b p) (p3_sub b p)) -> c = a \/ c = b ->
  let sq x := Rdist3 (RP3 p) (RP3 x) ^ 2 in let u := unit_roundoff A in let t := min_subnormal A in
  sq (p3_closest p a b) <= (1 + 15 * u) * sq c + 7 * t /\ sq c <= (1 + 15 * u) * sq (p3_farthest p a b) + 7 * t.
Proof. exact C98_closest_nearly_3d_pf. Qed.
Print Assumptions C98_closest_nearly_3d.
(* some margin is needed: in f32 (4668, 11595) is shorter than (11553, 4771), by 1 in 156234250, but is reported as longer *)
Definition ca : Vector2 (num A32) := mkVector2 (d32 4668 0) (d32 11595 0).
Definition cb : Vector2 (num A32) := mkVector2 (d32 11553 0) (d32 4771 0).
Example C98_margin_needed : v2_is_shorter_than ca cb = false /\ v2_is_shorter_than cb ca = true /\ Rdot2 (RV2 ca) (RV2 ca) < Rdot2 (RV2 cb) (RV2 cb).
Proof.
  split; [vm_compute; reflexivity|]. split; [vm_compute; reflexivity|].
  assert (V1 : real_of (d32 4668 0 : num A32) = 4668) by (cbn -[Rinv IZR]; unfold Defs.F2R; cbn; lra). assert (V2 : real_of (d32 11595 0 : num A32) = 11595) by (cbn -[Rinv IZR]; unfold Defs.F2R; cbn; lra).
  assert (V3 : real_of (d32 11553 0 : num A32) = 11553) by (cbn -[Rinv IZR]; unfold Defs.F2R; cbn; lra). assert (V4 : real_of (d32 4771 0 : num A32) = 4771) by (cbn -[Rinv IZR]; unfold Defs.F2R; cbn; lra).
  unfold Rdot2, RV2, ca, cb. cbn [v2x v2y]. rewrite V1, V2, V3, V4. lra.
Qed.
(* the hypotheses hold for (3, 4) and (5, 1) in f64 *)
Example C98_case : let a := mkVector2 (d64 3 0) (d64 4 0) in let b := mkVector2 (d64 5 0) (d64 1 0) in
  VFinite2 b /\ Finite (v2_dot a a) /\ (1 + 9 * unit_roundoff A64) * Rnorm2 (RV2 a) ^ 2 + 7 * min_subnormal A64 < Rnorm2 (RV2 b) ^ 2.
Proof.
  assert (V1 : real_of (d64 3 0 : num A64) = 3) by (cbn -[Rinv IZR]; unfold Defs.F2R; cbn; lra). assert (V2 : real_of (d64 4 0 : num A64) = 4) by (cbn -[Rinv IZR]; unfold Defs.F2R; cbn; lra).
  assert (V3 : real_of (d64 5 0 : num A64) = 5) by (cbn -[Rinv IZR]; unfold Defs.F2R; cbn; lra). assert (V4 : real_of (d64 1 0 : num A64) = 1) by (cbn -[Rinv IZR]; unfold Defs.F2R; cbn; lra).
  intros a b. split; [intros []; vm_compute; reflexivity|]. split; [vm_compute; reflexivity|].
  destruct (FloatErr.Rnorm2_sq (RV2 a)) as (Ea & _). destruct (FloatErr.Rnorm2_sq (RV2 b)) as (Eb & _).
  replace (Rnorm2 (RV2 a) ^ 2) with (Rdot2 (RV2 a) (RV2 a)) by (rewrite Ea; ring). replace (Rnorm2 (RV2 b) ^ 2) with (Rdot2 (RV2 b) (RV2 b)) by (rewrite Eb; ring).
  unfold Rdot2, RV2, a, b. cbn [v2x v2y]. rewrite V1, V2, V3, V4. pose proof (ErrBase.u_pos (A:=A64)) as U. pose proof (FloatErr.t_le_uuu (A:=A64)) as T. pose proof (ErrBase.t_pos (A:=A64)) as T0.
  set (u := unit_roundoff A64) in *. set (t := min_subnormal A64) in *. assert (u * u * u <= / 16777216) by nra. lra.
Qed.
