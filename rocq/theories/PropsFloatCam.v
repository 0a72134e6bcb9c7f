(** Theorems: C91 (cameras with safe parameters).
    [A] ranges over f32 and f64 on every platform, and exact reals extended with infinities and NaN. *)
From Coq Require Import Bool NArith ZArith Reals List Lia Lra.
From Flocq Require Import Core.Zaux Core.Raux.
From Verif Require Import Scalar Types Vector3 Point3 Transform3 Float XReal Arith SpecOrder SpecFloat SpecReal SpecErr SpecRot SpecTrans SpecLook SpecRange SpecCam ExVals FloatErr FloatInv FloatLook FloatGrid FloatRange FloatCam.
Import ListNotations.
Local Open Scope R_scope.
(** the computed sine of the angle between up and the view direction: the conditions of C80 hold *)
Theorem C91_computed_sine : forall (A : arith) (from target : Point3 (num A)) (up : Vector3 (num A)), SafeCamera from target up ->
  exists s, LookOk from target up s /\ Rabs (s - Rsine (RV3 up) (Rarrow (RP3 from) (RP3 target))) <= 50 * unit_roundoff A.
Proof. exact C91_computed_sine_pf. Qed.
Print Assumptions C91_computed_sine.
(** look_at succeeds and nothing overflows *)
Theorem C91_camera_works : forall (A : arith) (prof : profile) (from target : Point3 (num A)) (up : Vector3 (num A)), SafeCamera from target up ->
  exists t, t3_look_at prof from target up = Ret (Ok t) /\
  (forall p, (forall d, NotTooBig (coord3 p d)) -> Finite3 (t3_transform_point t p) /\ Finite3 (t3_transform_point (t3_inverse t) p)) /\
  (forall v, (forall d, NotTooBig (vcoord3 v d)) -> VFinite3 (t3_transform_vector t v) /\ VFinite3 (t3_transform_vector (t3_inverse t) v)).
Proof. exact C91_camera_works_pf. Qed.
Print Assumptions C91_camera_works.
(** the camera: eye, target and up end up where they should, in terms of the true sine sg of the angle between up and the view direction *)
Theorem C91_camera_view : forall (A : arith) (prof : profile) (from target : Point3 (num A)) (up : Vector3 (num A)) t, SafeCamera from target up -> t3_look_at prof from target up = Ret (Ok t) ->
  let u := unit_roundoff A in let sg := Rsine (RV3 up) (Rarrow (RP3 from) (RP3 target)) in
  (forall d, Rabs (real_of (coord3 (t3_transform_point t from) d)) <= 424 * u * Rsum3 (toV3 (RP3 from)) + 24 * min_subnormal A) /\
  (forall d, Rabs (real_of (coord3 (t3_transform_point t target) d) - match d with D3Z => Rdist3 (RP3 target) (RP3 from) | _ => 0 end)
    <= 222 * u * (Rsum3 (toV3 (RP3 target)) + Rsum3 (toV3 (RP3 from))) + 24 * min_subnormal A) /\
  Rabs (v3x (RV3 (t3_transform_vector t up))) <= 228 * u / sg * Rnorm3 (RV3 up) /\ 73 / 100 * sg * Rnorm3 (RV3 up) <= v3y (RV3 (t3_transform_vector t up)) /\
  (forall v, (forall d, NotTooBig (vcoord3 v d)) -> Rabs (Rnorm3 (RV3 (t3_transform_vector t v)) - Rnorm3 (RV3 v)) <= 372 * u / sg * Rnorm3 (RV3 v) + 6 * min_subnormal A).
Proof. exact C91_camera_view_pf. Qed.
Print Assumptions C91_camera_view.
(** through the camera and back *)
Theorem C91_round_trip : forall (A : arith) (prof : profile) (from target : Point3 (num A)) (up : Vector3 (num A)) t, SafeCamera from target up -> t3_look_at prof from target up = Ret (Ok t) ->
  let u := unit_roundoff A in
  (forall p d, (forall d, NotFar (coord3 p d)) -> let r := t3_transform_point (t3_inverse t) (t3_transform_point t p) in
     Finite3 r /\ Rabs (real_of (coord3 r d) - real_of (coord3 p d)) <= 660 * u * (Rsum3 (toV3 (RP3 p)) + Rsum3 (toV3 (RP3 from))) + 80 * min_subnormal A) /\
  (forall v d, (forall d, NotFar (vcoord3 v d)) -> let r := t3_transform_vector (t3_inverse t) (t3_transform_vector t v) in
     VFinite3 r /\ Rabs (real_of (vcoord3 r d) - real_of (vcoord3 v d)) <= 290 * u * Rsum3 (RV3 v) + 20 * min_subnormal A).
Proof. exact C91_round_trip_pf. Qed.
Print Assumptions C91_round_trip.
(** the angle condition is needed: for up exactly parallel to the view direction (no valid camera) look_at still succeeds, with a finite transform whose x axis is *)
(** (0, 1, 0), nearly parallel to its z axis *)
Theorem C91_parallel_up_accepted : forall prof, let from := mkPoint3 (d64 0 0) (d64 0 0) (d64 0 0) : Point3 (num A64) in let target := mkPoint3 (d64 1 0) (d64 7 0) (d64 3 0) : Point3 (num A64) in
  let up := mkVector3 (d64 3 0) (d64 21 0) (d64 9 0) : Vector3 (num A64) in
  VEq3 up (v3_mul (p3_sub target from) (d64 3 0)) /\
  exists t, t3_look_at prof from target up = Ret (Ok t) /\ MFinite4 (t3_forward t) /\ MFinite4 (t3_forward (t3_inverse t)) /\
  let x := t3_transform_vector (t3_inverse t) v3_x_axis in let z := t3_transform_vector (t3_inverse t) v3_z_axis in
  VEq3 x v3_y_axis /\ Lt (sdiv (d64 9 0) (d64 10 0)) (v3_dot x z).
Proof. exact C91_parallel_up_accepted_pf. Qed.
Print Assumptions C91_parallel_up_accepted.
(* the hypotheses are met: an eye away from the origin, an oblique view direction (2, 1, 2), up = (0, 2, 0) not perpendicular to it *)
Ltac lit := apply lit_mag; [vm_compute; reflexivity | vm_compute; reflexivity | lia | vm_compute; congruence].
Example C91_example : SafeCamera (mkPoint3 (d64 1 0) (d64 2 0) (d64 3 0) : Point3 (num A64)) (mkPoint3 (d64 3 0) (d64 3 0) (d64 5 0)) (mkVector3 (d64 0 0) (d64 2 0) (d64 0 0)).
Proof.
  assert (V : forall n, (Z.abs n < 2 ^ 53)%Z -> real_of (d64 n 0 : num A64) = IZR n) by (intros n B; unfold A64, d64; apply real_flit; exact B).
  assert (S : 5 / 6 <= Rsine (RV3 (mkVector3 (d64 0 0) (d64 2 0) (d64 0 0) : Vector3 (num A64))) (Rarrow (RP3 (mkPoint3 (d64 1 0) (d64 2 0) (d64 3 0) : Point3 (num A64))) (RP3 (mkPoint3 (d64 3 0) (d64 3 0) (d64 5 0) : Point3 (num A64))))).
  { unfold Rsine, Rcross3, Rarrow, RV3, RP3, Rnorm3, Rdot3. cbn [v3x v3y v3z p3x p3y p3z]. rewrite !V by (cbn; lia).
    match goal with |- context [sqrt ?n / (sqrt ?a * sqrt ?b)] => replace n with (4 * 4 + 4 * 4) by ring; replace a with (2 * 2) by ring; replace b with (3 * 3) by ring end.
    rewrite (sqrt_square 2), (sqrt_square 3) by lra.
    assert (5 <= sqrt (4 * 4 + 4 * 4)) by (rewrite <- (sqrt_square 5) by lra; apply sqrt_le_1; lra). apply Rmult_le_reg_r with (2 * 3); [lra|]. unfold Rdiv. rewrite (Rmult_assoc (sqrt _)), Rinv_l by lra. lra. }
  unfold SafeCamera. split; [intros d; apply (Mag_le 3 505); [destruct d; lit | lia]|]. split; [intros d; apply (Mag_le 3 505); [destruct d; lit | lia]|].
  split; [exists D3X; cbn [coord3 p3x]; unfold NotTooSmall; rewrite !V by (cbn; lia); rewrite Rabs_pos_eq by lra; apply Rle_trans with (bpow radix2 0); [apply bpow_le; cbn; lia | cbn; lra]|].
  split; [intros d; apply (Mag_le 3 510); [destruct d; lit | lia]|].
  split; [exists D3Y; cbn [vcoord3 v3y]; unfold NotTooSmall; rewrite !V by (cbn; lia); rewrite Rabs_pos_eq by lra; apply Rle_trans with (bpow radix2 0); [apply bpow_le; cbn; lia | cbn; lra]|].
  split; [lra|]. destruct t_u64 as [_ U]. lra.
Qed.
