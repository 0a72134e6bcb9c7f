(** Proofs: cameras with safe parameters (C91). *)
From Coq Require Import Bool NArith ZArith Reals List Lra Lia.
From Flocq Require Import Core.Zaux Core.Raux Core.Defs Core.Generic_fmt Core.FLT IEEE754.BinarySingleNaN.
From Verif Require Import Scalar Types Vector2 Vector3 Point2 Point3 Ray BoundingBox2 BoundingBox3 Transform2 Transform3 Float
  XReal OrdLaws Arith SpecOrder SpecStruct SpecFloat SpecReal SpecErr SpecRot SpecInv SpecTrans SpecLook SpecRange SpecCam Adj4 OrderProofs ExactBase ExactMat FloatX XArith FloatLaws FloatTrans ErrBase FloatErr FloatInv
  FloatTri FloatRot FloatInvAcc LookReal LookFrame FloatBig FloatAxis LookCam FloatLook FloatRange ExVals.
Import ListNotations.
Local Open Scope R_scope.
(* real numbers: cross products of nearby unit vectors *)
Lemma Rnorm3_scale (v : Vector3 R) (k : R) : 0 <= k -> Rnorm3 (mkVector3 (v3x v * k) (v3y v * k) (v3z v * k)) = Rnorm3 v * k.
Proof.
  intros K. destruct (Rnorm3_sq' v) as [N1 N2]. destruct (Rnorm3_sq' (mkVector3 (v3x v * k) (v3y v * k) (v3z v * k))) as [N3 N4]. cbn [v3x v3y v3z] in N3.
  apply Rsqr_inj; [assumption | apply Rmult_le_pos; assumption|]. unfold Rsqr. rewrite <- N3. replace (Rnorm3 v * k * (Rnorm3 v * k)) with (Rnorm3 v * Rnorm3 v * (k * k)) by ring. rewrite <- N1. ring.
Qed.
Definition uvec (v : Vector3 R) : Vector3 R := mkVector3 (v3x v / Rnorm3 v) (v3y v / Rnorm3 v) (v3z v / Rnorm3 v).
Lemma uvec_norm v : 0 < Rnorm3 v -> v3x (uvec v) * v3x (uvec v) + v3y (uvec v) * v3y (uvec v) + v3z (uvec v) * v3z (uvec v) = 1.
Proof. intros P. destruct (Rnorm3_sq' v) as [N1 _]. unfold uvec. cbn [v3x v3y v3z]. replace (v3x v / Rnorm3 v * (v3x v / Rnorm3 v) + v3y v / Rnorm3 v * (v3y v / Rnorm3 v) + v3z v / Rnorm3 v * (v3z v / Rnorm3 v)) with ((v3x v * v3x v + v3y v * v3y v + v3z v * v3z v) / (Rnorm3 v * Rnorm3 v)) by (field; lra). rewrite N1. field. lra. Qed.
Lemma sine_unit a b : 0 < Rnorm3 a -> 0 < Rnorm3 b -> Rsine a b = Rnorm3 (rx (uvec a) (uvec b)).
Proof.
  intros P Q. unfold Rsine. assert (K : 0 <= / (Rnorm3 a * Rnorm3 b)) by (left; apply Rinv_0_lt_compat, Rmult_lt_0_compat; assumption).
  unfold Rdiv. rewrite <- (Rnorm3_scale _ _ K). f_equal. unfold rx, uvec, Rcross3. cbn [v3x v3y v3z]. f_equal; field; lra.
Qed.
Lemma cross_near (a b a' b' : Vector3 R) (e f : R) : 0 <= e -> 0 <= f ->
  v3x a * v3x a + v3y a * v3y a + v3z a * v3z a <= 10001 / 10000 * (10001 / 10000) -> v3x b' * v3x b' + v3y b' * v3y b' + v3z b' * v3z b' <= 1 * 1 ->
  (forall d, Rabs (vcoord3 a d - vcoord3 a' d) <= e) -> (forall d, Rabs (vcoord3 b d - vcoord3 b' d) <= f) ->
  forall d, Rabs (vcoord3 (rx a b) d - vcoord3 (rx a' b') d) <= 1415 / 1000 * (e + 10001 / 10000 * f).
Proof.
  intros E F Na Nb Ha Hb d.
  assert (G : forall x1 x2 y1 y2 x1' x2' y1' y2', x1 * x1 + x2 * x2 <= 10001 / 10000 * (10001 / 10000) -> y1' * y1' + y2' * y2' <= 1 * 1 ->
     Rabs (x1 - x1') <= e -> Rabs (x2 - x2') <= e -> Rabs (y1 - y1') <= f -> Rabs (y2 - y2') <= f -> Rabs (x1 * y2 - x2 * y1 - (x1' * y2' - x2' * y1')) <= 1415 / 1000 * (e + 10001 / 10000 * f)).
  { intros x1 x2 y1 y2 x1' x2' y1' y2' X Y H1 H2 H3 H4.
    assert (S : forall p q B, 0 <= B -> p * p + q * q <= B * B -> Rabs p + Rabs q <= 1415 / 1000 * B).
    { intros p q B HB HS. apply Rsqr_incr_0_var; [|lra]. unfold Rsqr. assert (Q : forall z, z * z = Rabs z * Rabs z) by (intros z; rewrite <- Rabs_mult; symmetry; apply Rabs_pos_eq, Rle_0_sqr). rewrite (Q p), (Q q) in HS.
      pose proof (Rle_0_sqr (Rabs p - Rabs q)) as SQ. unfold Rsqr in SQ. pose proof (Rle_0_sqr B) as SB. unfold Rsqr in SB. clear -HS SQ SB. lra. }
    pose proof (S x1 x2 (10001 / 10000) ltac:(lra) X) as SX. pose proof (S y1' y2' 1 ltac:(lra) Y) as SY.
    replace (x1 * y2 - x2 * y1 - (x1' * y2' - x2' * y1')) with ((x1 * (y2 - y2') + - (x2 * (y1 - y1'))) + ((x1 - x1') * y2' + - ((x2 - x2') * y1'))) by ring.
    eapply Rle_trans; [apply Rabs_triang|]. eapply Rle_trans; [apply Rplus_le_compat; apply Rabs_triang|]. rewrite !Rabs_Ropp, !Rabs_mult.
    assert (Rabs x1 * Rabs (y2 - y2') <= Rabs x1 * f) by (apply Rmult_le_compat_l; [apply Rabs_pos | assumption]).
    assert (Rabs x2 * Rabs (y1 - y1') <= Rabs x2 * f) by (apply Rmult_le_compat_l; [apply Rabs_pos | assumption]).
    assert (Rabs (x1 - x1') * Rabs y2' <= e * Rabs y2') by (apply Rmult_le_compat_r; [apply Rabs_pos | assumption]).
    assert (Rabs (x2 - x2') * Rabs y1' <= e * Rabs y1') by (apply Rmult_le_compat_r; [apply Rabs_pos | assumption]).
    assert ((Rabs x1 + Rabs x2) * f <= 1415 / 1000 * (10001 / 10000) * f) by (apply Rmult_le_compat_r; assumption).
    assert (e * (Rabs y1' + Rabs y2') <= e * (1415 / 1000 * 1)) by (apply Rmult_le_compat_l; assumption). lra. }
  pose proof (Ha D3X) as A1. pose proof (Ha D3Y) as A2. pose proof (Ha D3Z) as A3. pose proof (Hb D3X) as B1. pose proof (Hb D3Y) as B2. pose proof (Hb D3Z) as B3. cbn [vcoord3] in *.
  pose proof (Rle_0_sqr (v3x a)). pose proof (Rle_0_sqr (v3y a)). pose proof (Rle_0_sqr (v3z a)). pose proof (Rle_0_sqr (v3x b')). pose proof (Rle_0_sqr (v3y b')). pose proof (Rle_0_sqr (v3z b')). unfold Rsqr in *.
  destruct d; cbn [vcoord3 rx v3x v3y v3z]; apply G; first [assumption | lra].
Qed.
Section C.
Context {A : arith}.
Notation u := (unit_roundoff A).
Notation t := (min_subnormal A).
Lemma far_big (x : num A) : NotFar x -> NotTooBig x.
Proof. unfold NotFar, NotTooBig. intros [F B]. split; [exact F|]. destruct A as [f P|]; [|exact I]. eapply Rle_trans; [exact B|]. apply bpow_le. destruct f; cbn; lia. Qed.
Lemma far_tG (from : Point3 (num A)) : (forall d, NotFar (coord3 from d)) -> 64 * t * (2 + Rsum3 (toV3 (RP3 from))) ^ 2 <= u.
Proof.
  intros H. destruct A as [f P|]; [|cbn; lra]. pose proof (H D3X) as [_ X]. pose proof (H D3Y) as [_ Y]. pose proof (H D3Z) as [_ Z]. cbn [coord3] in X, Y, Z.
  assert (S : 0 <= 2 + Rsum3 (toV3 (RP3 from)) <= bpow radix2 (eye_exp f + 2)).
  { unfold Rsum3, toV3. cbn [v3x v3y v3z RP3 p3x p3y p3z]. pose proof (Rabs_pos (real_of (p3x from))). pose proof (Rabs_pos (real_of (p3y from))). pose proof (Rabs_pos (real_of (p3z from))). split; [lra|].
    rewrite bpow_plus. change (bpow radix2 2) with 4. assert (2 <= bpow radix2 (eye_exp f)) by (change 2 with (bpow radix2 1); apply bpow_le; destruct f; cbn; lia). lra. }
  assert (Q : (2 + Rsum3 (toV3 (RP3 from))) ^ 2 <= bpow radix2 (2 * (eye_exp f + 2))). { replace (2 * (eye_exp f + 2))%Z with ((eye_exp f + 2) + (eye_exp f + 2))%Z by lia. rewrite bpow_plus. simpl pow. rewrite Rmult_1_r. apply Rmult_le_compat; apply S. }
  set (q := (2 + Rsum3 (toV3 (RP3 from))) ^ 2) in *. clearbody q. cbn [min_subnormal unit_roundoff]. change 64 with (bpow radix2 6). rewrite <- bpow_plus.
  eapply Rle_trans; [apply Rmult_le_compat_l; [apply bpow_ge_0 | exact Q]|]. rewrite <- bpow_plus. apply bpow_le. destruct f; cbn; lia.
Qed.
End C.
Section S.
Context {A : arith} (from target : Point3 (num A)) (up : Vector3 (num A)).
Notation u := (unit_roundoff A).
Notation t := (min_subnormal A).
Context (H : SafeCamera from target up).
Notation cw := (cw from target). Notation ca := (ca up). Notation cd := (cd from target). Notation cc := (cc from target up).
Notation W := (Rarrow (RP3 from) (RP3 target)).
Notation sg := (Rsine (RV3 up) W).
Lemma safe_len : LenOk cw /\ LenOk up.
Proof using H.
  destruct H as (BP & BQ & (d & N) & BU & (e & M) & _). split.
  - assert (BP' : forall d, NotTooBig (coord3 from d)) by (intros; apply far_big, BP). assert (BQ' : forall d, NotTooBig (coord3 target d)) by (intros; apply far_big, BQ).
    assert (K : VFinite3 cw /\ Finite (v3_dot cw cw)).
    { destruct (safe_two3 (coord3 from) (coord3 target) BP' BQ') as (k & K & MP & MQ & F).
      assert (D : VMag3 (k + 1) cw) by (intros c; unfold LookCam.cw; rewrite dsub3; apply Mag_sub; auto; eapply fits_le; [exact F | lia]).
      split; [intros c; apply D|]. unfold v3_dot. apply (add_3 (k + 1 + (k + 1))); [lia | mg; sides F | mg; sides F | eapply fits_le; [exact F | lia]]. }
    destruct K as [FV FD]. destruct (safe_core3 cw d FD) as (S1 & S2 & S3); [|exact FV | split; [exact FD | split; assumption]]. unfold LookCam.cw. rewrite dsub3. apply sub_small; [|exact N]. rewrite <- dsub3. apply FV.
  - destruct (safe_two3 (vcoord3 up) (vcoord3 up) BU BU) as (k & K & MV & _ & F). assert (FD : Finite (v3_dot up up)) by (apply (C89_dot_3d_pf A k k up up K K MV MV); eapply fits_le; [exact F | lia]).
    assert (FV : VFinite3 up) by (intros c; apply BU). destruct (safe_core3 up e FD M FV) as (S1 & S2 & S3). split; [exact FD | split; assumption].
Qed.
Lemma sw_err d : Rabs (vcoord3 (RV3 cw) d - vcoord3 W d) <= u * Rabs (vcoord3 W d).
Proof using H.
  destruct safe_len as [(F0 & _) _]. destruct (dot_finite_inv3 _ F0) as (F1 & F2 & F3).
  assert (Q : forall a b : num A, Finite (ssub a b) -> Rabs (real_of (ssub a b) - (real_of a - real_of b)) <= u * Rabs (real_of a - real_of b)).
  { intros a b Fs. destruct (err_sub _ _ Fs) as (_ & _ & e & E & ->). replace ((real_of a - real_of b) * (1 + e) - (real_of a - real_of b)) with (e * (real_of a - real_of b)) by ring. rewrite Rabs_mult. apply Rmult_le_compat_r; [apply Rabs_pos | exact E]. }
  destruct d; cbn [vcoord3 LookCam.cw RV3 v3x v3y v3z Rarrow] in *; apply Q; assumption.
Qed.
Lemma sw_norm : Rabs (Rnorm3 (RV3 cw) - Rnorm3 W) <= u * Rnorm3 W /\ 0 < Rnorm3 W.
Proof using H.
  pose proof (t_u8 (A:=A)) as (_ & _ & U). destruct safe_len as ((_ & _ & P) & _).
  destruct (Rnorm3_sq' W) as [N1 N2]. destruct (Rnorm3_sq' (RV3 cw)) as [N3 N4]. pose proof (sw_err D3X) as E1. pose proof (sw_err D3Y) as E2. pose proof (sw_err D3Z) as E3. cbn [vcoord3] in E1, E2, E3.
  set (N := Rnorm3 W) in *. set (M := Rnorm3 (RV3 cw)) in *.
  assert (D : Rabs (M - N) <= u * N).
  { apply (rev_tri (v3x (RV3 cw)) (v3y (RV3 cw)) (v3z (RV3 cw)) (v3x W) (v3y W) (v3z W) M N (u * N) N4 N2); [apply Rmult_le_pos; lra | exact N3 | exact N1 |].
    assert (Q : forall x y, Rabs (x - y) <= u * Rabs y -> (x - y) * (x - y) <= u * u * (y * y)).
    { intros x y B. rewrite <- (Rabs_pos_eq ((x - y) * (x - y))) by apply Rle_0_sqr. rewrite Rabs_mult. replace (u * u * (y * y)) with ((u * Rabs y) * (u * Rabs y)); [apply Rmult_le_compat; try apply Rabs_pos; assumption|].
      replace (u * Rabs y * (u * Rabs y)) with (u * u * (Rabs y * Rabs y)) by ring. rewrite <- Rabs_mult, (Rabs_pos_eq (y * y)) by apply Rle_0_sqr. reflexivity. }
    pose proof (Q _ _ E1). pose proof (Q _ _ E2). pose proof (Q _ _ E3). replace (u * N * (u * N)) with (u * u * (N * N)) by ring. rewrite <- N1. lra. }
  split; [exact D|]. destruct (Rle_lt_or_eq_dec 0 N N2) as [?|E]; [assumption|]. exfalso. rewrite <- E, Rmult_0_r, Rminus_0_r, Rabs_pos_eq in D by lra. lra.
Qed.
Lemma sdir_err d : Rabs (vcoord3 (RV3 cd) d - vcoord3 (uvec W) d) <= 10 * u.
Proof using H.
  destruct sw_norm as (D & N0). pose proof (t_u8 (A:=A)) as (T8 & T0 & U). destruct safe_len as (Hw & _). destruct (unit_facts cw Hw) as (_ & _ & M0 & C & B). specialize (C d). specialize (B d). pose proof (sw_err d) as E.
  change (v3_normalize cw) with cd in C. assert (EU : vcoord3 (uvec W) d = vcoord3 W d / Rnorm3 W) by (destruct d; reflexivity). rewrite EU. set (x := vcoord3 (RV3 cw) d) in *. set (y := vcoord3 W d) in *. set (M := Rnorm3 (RV3 cw)) in *. set (N := Rnorm3 W) in *.
  assert (Y : Rabs y <= N) by apply comp_le_norm3.
  assert (Q : Rabs (x / M - y / N) <= 2 * u).
  { replace (x / M - y / N) with ((x / M * (N - M) + (x - y)) * / N) by (field; lra). rewrite Rabs_mult, Rabs_inv, (Rabs_pos_eq N) by lra. apply Rmult_le_reg_r with N; [assumption|]. rewrite Rmult_assoc, Rinv_l, Rmult_1_r by lra.
    eapply Rle_trans; [apply Rabs_triang|]. rewrite Rabs_mult. assert (Rabs (x / M) * Rabs (N - M) <= 1 * (u * N)) by (apply Rmult_le_compat; try apply Rabs_pos; [assumption | now rewrite Rabs_minus_sym]). assert (u * Rabs y <= u * N) by (apply Rmult_le_compat_l; lra). lra. }
  replace (vcoord3 (RV3 cd) d - y / N) with ((vcoord3 (RV3 cd) d - x / M) + (x / M - y / N)) by ring. eapply Rle_trans; [apply Rabs_triang|].
  assert (7 * u * Rabs (x / M) <= 7 * u * 1) by (apply Rmult_le_compat_l; lra). lra.
Qed.
Lemma sup_err d : Rabs (vcoord3 (RV3 ca) d - vcoord3 (uvec (RV3 up)) d) <= 8 * u.
Proof using H.
  pose proof (t_u8 (A:=A)) as (T8 & T0 & U). destruct safe_len as (_ & Hu). destruct (unit_facts up Hu) as (_ & _ & M0 & C & B). specialize (C d). specialize (B d). change (v3_normalize up) with ca in C.
  assert (EU : vcoord3 (uvec (RV3 up)) d = vcoord3 (RV3 up) d / Rnorm3 (RV3 up)) by (destruct d; reflexivity). rewrite EU.
  assert (7 * u * Rabs (vcoord3 (RV3 up) d / Rnorm3 (RV3 up)) <= 7 * u * 1) by (apply Rmult_le_compat_l; lra). lra.
Qed.
Lemma s_sine : VFinite3 cc /\ Rabs (Rnorm3 (RV3 cc) - sg) <= 50 * u.
Proof using H.
  pose proof (t_u8 (A:=A)) as (T8 & T0 & U). destruct safe_len as (Hw & Hu). destruct (unit_facts cw Hw) as (Fd & Nd & _). destruct (unit_facts up Hu) as (Fa & Na & Pu & _). change (v3_normalize cw) with cd in *. change (v3_normalize up) with ca in *.
  destruct (cross_facts ca cd Fa Fd Na Nd) as [Fc Ec]. change (v3_cross ca cd) with cc in *. split; [exact Fc|]. destruct sw_norm as [_ PW]. rewrite (sine_unit _ _ Pu PW).
  assert (NR : forall d, Rabs (vcoord3 (rx (RV3 ca) (RV3 cd)) d - vcoord3 (rx (uvec (RV3 up)) (uvec W)) d) <= 1415 / 1000 * (8 * u + 10001 / 10000 * (10 * u))).
  { apply cross_near; [lra | lra | | rewrite (uvec_norm W PW); lra | exact sup_err | exact sdir_err]. apply Rabs_le_inv in Na. lra. }
  assert (G : forall d, Rabs (vcoord3 (RV3 cc) d - vcoord3 (rx (uvec (RV3 up)) (uvec W)) d) <= 28 * u).
  { intros d. specialize (NR d). specialize (Ec d). replace (vcoord3 (RV3 cc) d - vcoord3 (rx (uvec (RV3 up)) (uvec W)) d) with ((vcoord3 (RV3 cc) d - vcoord3 (rx (RV3 ca) (RV3 cd)) d) + (vcoord3 (rx (RV3 ca) (RV3 cd)) d - vcoord3 (rx (uvec (RV3 up)) (uvec W)) d)) by ring.
    eapply Rle_trans; [apply Rabs_triang|]. lra. }
  set (V := rx (uvec (RV3 up)) (uvec W)) in *. destruct (Rnorm3_sq' (RV3 cc)) as [N1 N2]. destruct (Rnorm3_sq' V) as [N3 N4]. pose proof (G D3X) as G1. pose proof (G D3Y) as G2. pose proof (G D3Z) as G3. cbn [vcoord3] in G1, G2, G3.
  eapply Rle_trans; [apply (rev_tri _ _ _ _ _ _ _ _ (7 / 4 * (28 * u)) N2 N4 ltac:(lra) N1 N3); apply sumsq3; first [assumption | lra]|]. lra.
Qed.
Lemma safe_look : LookOk from target up (Rnorm3 (RV3 cc)).
Proof using H.
  pose proof (t_u8 (A:=A)) as (T8 & T0 & U). destruct safe_len as (Hw & Hu). destruct s_sine as [Fc E]. unfold LookOk. cbv zeta. change (p3_sub target from) with cw. change (v3_normalize cw) with cd. change (v3_normalize up) with ca. change (v3_cross ca cd) with cc.
  destruct H as (BP & _ & _ & _ & _ & P & L). set (S := Rnorm3 (RV3 cc)) in *. apply Rabs_le_inv in E. assert (S1 : 1024 * u <= S /\ 0 < S). { split; [lra|]. destruct (Rle_lt_or_eq_dec 0 u ltac:(lra)) as [?|Z]; [lra|]. rewrite <- Z in *. lra. }
  split; [exact Hw|]. split; [exact Hu|]. split; [|split; [reflexivity|]; split; [apply S1|]; exact (far_tG from BP)].
  destruct (unit_facts cw Hw) as (Fd & Nd & _). destruct (unit_facts up Hu) as (Fa & Na & _). change (v3_normalize cw) with cd in *. change (v3_normalize up) with ca in *. destruct (cross_facts ca cd Fa Fd Na Nd) as [_ Ec]. change (v3_cross ca cd) with cc in *.
  assert (B2 : VMag3 1 cc).
  { intros d. split; [apply Fc|]. change (bpow radix2 1) with 2. specialize (Ec d). unfold rd in *. apply Rabs_le_inv in Na, Nd.
    assert (RA : v3x (RV3 ca) * v3x (RV3 ca) + v3y (RV3 ca) * v3y (RV3 ca) + v3z (RV3 ca) * v3z (RV3 ca) <= 101 / 100 * (101 / 100)) by lra.
    assert (RB : v3x (RV3 cd) * v3x (RV3 cd) + v3y (RV3 cd) * v3y (RV3 cd) + v3z (RV3 cd) * v3z (RV3 cd) <= 101 / 100 * (101 / 100)) by lra.
    assert (X : Rabs (vcoord3 (rx (RV3 ca) (RV3 cd)) d) <= 101 / 100 * (101 / 100)).
    { pose proof (Rle_0_sqr (v3x (RV3 ca))). pose proof (Rle_0_sqr (v3y (RV3 ca))). pose proof (Rle_0_sqr (v3z (RV3 ca))). pose proof (Rle_0_sqr (v3x (RV3 cd))). pose proof (Rle_0_sqr (v3y (RV3 cd))). pose proof (Rle_0_sqr (v3z (RV3 cd))). unfold Rsqr in *.
      assert (Q : forall x y z w, x * x + y * y <= 101 / 100 * (101 / 100) -> z * z + w * w <= 101 / 100 * (101 / 100) -> Rabs (x * w - y * z) <= 101 / 100 * (101 / 100)).
      { intros x y z w X Y. eapply Rle_trans; [|apply (cs2 x y z w (101 / 100) (101 / 100)); lra]. unfold Rminus. eapply Rle_trans; [apply Rabs_triang|]. rewrite Rabs_Ropp, !Rabs_mult. lra. }
      destruct d; cbn [vcoord3 rx v3x v3y v3z]; apply Q; lra. }
    assert (EV : real_of (vcoord3 cc d) = vcoord3 (RV3 cc) d) by (destruct d; reflexivity). rewrite EV. replace (vcoord3 (RV3 cc) d) with ((vcoord3 (RV3 cc) d - vcoord3 (rx (RV3 ca) (RV3 cd)) d) + vcoord3 (rx (RV3 ca) (RV3 cd)) d) by ring. eapply Rle_trans; [apply Rabs_triang|]. lra. }
  assert (FD : Finite (v3_dot cc cc)) by (apply (C89_dot_3d_pf A 1 1 cc cc); try lia; try exact B2; unfold fits; destruct A as [[] ?|]; cbn; try lia; exact I).
  split; [exact FD|]. split; [|apply S1].
  pose proof (dot3_err cc cc FD) as DE. destruct (Rnorm3_sq (RV3 cc)) as (N & Q & _ & _). rewrite Q, N in DE. fold S in DE. pose proof (t_le_uuu (A:=A)) as TU. apply Rabs_le_inv in DE.
  set (d := real_of (v3_dot cc cc)) in *. clearbody d S. clear -DE S1 TU U T0 T8.
  assert (SS : 1024 * u * (1024 * u) <= S * S) by (apply Rmult_le_compat; lra). assert (S2 : 0 <= S * S) by apply Rle_0_sqr.
  assert (31 / 10 * u * (S * S) <= 1 / 10 * (S * S)) by (apply Rmult_le_compat_r; lra).
  assert (u * u * u <= u * u * / 16777216) by (apply Rmult_le_compat_l; [apply Rle_0_sqr | lra]). assert (D : 1000 * (u * u) <= d) by lra.
  assert (u * (1000 * (u * u)) <= u * d) by (apply Rmult_le_compat_l; lra). assert (0 <= u * u * u) by (repeat apply Rmult_le_pos; lra). lra.
Qed.
End S.
Section G.
Context {A : arith}.
Lemma safe_list (l : list (num A)) : Forall NotTooBig l -> exists k, (0 <= k)%Z /\ fits A (k + 8) /\ Forall (Mag k) l.
Proof.
  destruct A as [f P|] eqn:EA.
  - intros F. exists (safe_exp f). split; [apply safe_pos_exp|]. split; [destruct f; cbn; lia|]. eapply Forall_impl; [|exact F]. intros x Hx. exact Hx.
  - induction 1 as [|x l Hx _ (k & K & _ & IH)]; [exists 0%Z; split; [lia | split; [exact I | constructor]]|]. destruct (Mag_ex (A:=EXACT) x (proj1 Hx)) as (j & J & M). exists (Z.max j k). split; [lia|]. split; [exact I|]. constructor; [eapply Mag_le; [exact M | lia] | eapply Forall_impl; [|exact IH]; intros y Hy; eapply Mag_le; [exact Hy | lia]].
Qed.
Lemma row_v k (a b c x y z : num A) : (0 <= k)%Z -> fits A (k + 8) -> Mag 1 a -> Mag 1 b -> Mag 1 c -> Mag k x -> Mag k y -> Mag k z -> Mag (k + 3) (sadd (sadd (smul a x) (smul b y)) (smul c z)).
Proof. intros K F Ha Hb Hc Hx Hy Hz. mg; sides F. Qed.
Lemma row_p k (a b c x y z e w : num A) : (0 <= k)%Z -> fits A (k + 8) -> Mag 1 a -> Mag 1 b -> Mag 1 c -> Mag k x -> Mag k y -> Mag k z -> Mag k e -> Finite w -> / 2 <= Rabs (real_of w) ->
  Finite (sdiv (sadd (sadd (sadd (smul a x) (smul b y)) (smul c z)) e) w).
Proof.
  intros K F Ha Hb Hc Hx Hy Hz He Fw Lw. pose proof (row_v k a b c x y z K F Ha Hb Hc Hx Hy Hz) as M. assert (M2 : Mag (k + 4) (sadd (sadd (sadd (smul a x) (smul b y)) (smul c z)) e)).
  { mg; sides F. }
  apply (Bk_div (k + 4) _ w M2 Fw Lw); [lia|]. exact (okexp_le A (k + 4 + 1) (k + 8) F ltac:(lia)).
Qed.
End G.
Ltac ents H := repeat match type of H with Forall _ (_ :: _) => let F := fresh "L" in let H' := fresh "H" in inversion H as [|? ? F H']; subst; clear H; rename H' into H end.
Section I.
Context {A : arith} (from target : Point3 (num A)) (up : Vector3 (num A)).
Notation u := (unit_roundoff A).
Notation t := (min_subnormal A).
Context (H : SafeCamera from target up).
Notation cc := (cc from target up). Notation cM := (cM from target up). Notation cF := (cF from target up).
Notation fsum := (Rsum3 (toV3 (RP3 from))).
Notation HL := (safe_look from target up H).
(* the matrices: linear part at most 2, translation bounded, weight close to 1 *)
Lemma F_lin r c (x : num A) : (r < 3)%nat -> (c < 3)%nat -> real_of x = ent4 (RM4 cF) r c -> Finite x -> Mag 1 x.
Proof using H.
  intros Hr Hc E Fx. pose proof (t_u8 (A:=A)) as (_ & T0 & U). split; [exact Fx|]. destruct (cam_lin from target up _ HL r c Hr Hc) as [L1 L2]. rewrite E. replace (ent4 _ r c) with ((ent4 (RM4 cF) r c - ent4 (Rinv4 (RM4 cM)) r c) + ent4 (Rinv4 (RM4 cM)) r c) by ring. eapply Rle_trans; [apply Rabs_triang|]. replace (bpow radix2 1) with 2 by (cbn; lra). lra.
Qed.
Lemma fsum_pos : 0 <= fsum.
Proof. unfold Rsum3. pose proof (Rabs_pos (v3x (toV3 (RP3 from)))). pose proof (Rabs_pos (v3y (toV3 (RP3 from)))). pose proof (Rabs_pos (v3z (toV3 (RP3 from)))). lra. Qed.
Lemma F_tr r (x : num A) : (r < 3)%nat -> real_of x = ent4 (RM4 cF) r 3%nat -> Finite x -> NotTooBig x.
Proof using H.
  intros Hr E Fx. pose proof (t_u8 (A:=A)) as (T8 & T0 & U). split; [exact Fx|]. pose proof (cam_tr from target up _ HL r Hr) as L1. destruct (cam_N3 from target up _ HL r Hr) as [_ L2]. pose proof fsum_pos as F0.
  destruct H as (BP & _). pose proof (BP D3X) as [_ X]. pose proof (BP D3Y) as [_ Y]. pose proof (BP D3Z) as [_ Z]. clear BP.
  assert (B : Rabs (real_of x) <= 11 / 10 * fsum + 1). { rewrite E. replace (ent4 _ r 3%nat) with ((ent4 (RM4 cF) r 3%nat - ent4 (Rinv4 (RM4 cM)) r 3%nat) + ent4 (Rinv4 (RM4 cM)) r 3%nat) by ring. eapply Rle_trans; [apply Rabs_triang|]. assert (86 * u * fsum <= 1 / 100 * fsum) by (apply Rmult_le_compat_r; lra). lra. }
  clear L1 L2 E. destruct A as [f P|]; [|exact I]. cbn [coord3] in X, Y, Z. unfold Rsum3, toV3 in *. cbn [v3x v3y v3z RP3 p3x p3y p3z] in *.
  replace (safe_exp f) with (eye_exp f + 5)%Z by (destruct f; reflexivity). rewrite bpow_plus. change (bpow radix2 5) with 32. assert (1 <= bpow radix2 (eye_exp f)) by (change 1 with (bpow radix2 0); apply bpow_le; destruct f; cbn; lia). lra.
Qed.
Lemma F_vec (v : Vector3 (num A)) : (forall d, NotTooBig (vcoord3 v d)) -> VFinite3 (m4_mul_vector cF v).
Proof using H.
  intros B. destruct (safe_list [v3x v; v3y v; v3z v]) as (k & K & FT & M); [repeat constructor; first [apply (B D3X) | apply (B D3Y) | apply (B D3Z)]|]. ents M.
  destruct (cam_F from target up _ HL) as (FF & _). unfold MFinite4, m4_comps in FF. ents FF.
  intros d. unfold m4_mul_vector, v3_new. destruct d; cbn [vcoord3 v3x v3y v3z]; apply (row_v k); try assumption; [apply (F_lin 0%nat 0%nat) | apply (F_lin 0%nat 1%nat) | apply (F_lin 0%nat 2%nat) | apply (F_lin 1%nat 0%nat) | apply (F_lin 1%nat 1%nat) | apply (F_lin 1%nat 2%nat) | apply (F_lin 2%nat 0%nat) | apply (F_lin 2%nat 1%nat) | apply (F_lin 2%nat 2%nat)]; try lia; try reflexivity; assumption.
Qed.
Lemma F_pt (p : Point3 (num A)) : (forall d, NotTooBig (coord3 p d)) -> Finite3 (m4_mul_point cF p).
Proof using H.
  intros B. assert (Fp : Finite3 p) by (intros d; apply B). pose proof (t_u8 (A:=A)) as (_ & T0 & U).
  destruct (cam_F from target up _ HL) as (FF & _). unfold MFinite4, m4_comps in FF. ents FF. pose proof (cam_w from target up _ HL) as W. pose proof (cam_wsum from target up _ HL p Fp) as WS.
  destruct (safe_list [p3x p; p3y p; p3z p; m4_3 cF; m4_7 cF; m4_11 cF]) as (k & K & FT & M).
  { repeat constructor; first [apply (B D3X) | apply (B D3Y) | apply (B D3Z) | (apply (F_tr 0%nat); [lia | reflexivity | assumption]) | (apply (F_tr 1%nat); [lia | reflexivity | assumption]) | (apply (F_tr 2%nat); [lia | reflexivity | assumption])]. }
  ents M. set (w := sadd (sadd (sadd (smul (m4_12 cF) (p3x p)) (smul (m4_13 cF) (p3y p))) (smul (m4_14 cF) (p3z p))) (m4_15 cF)) in *.
  assert (FW : Finite w /\ / 2 <= Rabs (real_of w)).
  { destruct (real_of_eq _ _ WS) as [FW' VW]. assert (Q : Finite w) by (apply FW'; assumption). split; [exact Q|]. rewrite (VW Q). change (ent4 (RM4 cF) 3%nat 3%nat) with (real_of (m4_15 cF)) in W. apply Rabs_le_inv in W. rewrite Rabs_pos_eq; lra. }
  destruct FW as [FW LW]. intros d. unfold m4_mul_point, p3_new. fold w. destruct d; cbn [coord3 p3x p3y p3z]; apply (row_p k); try assumption; [apply (F_lin 0%nat 0%nat) | apply (F_lin 0%nat 1%nat) | apply (F_lin 0%nat 2%nat) | apply (F_lin 1%nat 0%nat) | apply (F_lin 1%nat 1%nat) | apply (F_lin 1%nat 2%nat) | apply (F_lin 2%nat 0%nat) | apply (F_lin 2%nat 1%nat) | apply (F_lin 2%nat 2%nat)]; try lia; try reflexivity; assumption.
Qed.
End I.
Section B.
Context {A : arith} (from target : Point3 (num A)) (up : Vector3 (num A)).
Notation u := (unit_roundoff A).
Notation t := (min_subnormal A).
Context (H : SafeCamera from target up).
Notation cr := (cr from target up). Notation cn := (cn from target up). Notation cd := (cd from target). Notation cM := (cM from target up). Notation cF := (cF from target up).
Notation fsum := (Rsum3 (toV3 (RP3 from))).
Notation HL := (safe_look from target up H).
Lemma M_affine : Affine4x4 cM.
Proof. unfold Affine4x4, LookCam.cM, m4_inverse_look_at, m4_new. cbn [m4_12 m4_13 m4_14 m4_15]. conjs; apply (Eqs_refl (num_OrdLaws A)); apply finite_NoNaN; first [apply (proj1 (Zr_0 (A:=A))) | apply (proj1 (real_of_1 (A:=A)))]. Qed.
Lemma M_ents : (Mag 1 (m4_0 cM) /\ Mag 1 (m4_1 cM) /\ Mag 1 (m4_2 cM)) /\ (Mag 1 (m4_4 cM) /\ Mag 1 (m4_5 cM) /\ Mag 1 (m4_6 cM)) /\ (Mag 1 (m4_8 cM) /\ Mag 1 (m4_9 cM) /\ Mag 1 (m4_10 cM)) /\
  (NotFar (m4_3 cM) /\ NotFar (m4_7 cM) /\ NotFar (m4_11 cM)).
Proof using H.
  destruct (cam_frame from target up _ HL) as ((_ & _ & Fd & Fr & Fn) & FR & K & _). pose proof (t_u8 (A:=A)) as (_ & _ & U). destruct (fr_ent _ _ _ _ _ _ _ _ _ _ _ U K FR) as ((A1 & A2 & A3) & (B1 & B2 & B3) & (C1 & C2 & C3)).
  assert (Q : forall x : num A, Finite x -> Rabs (real_of x) <= 1001 / 1000 -> Mag 1 x) by (intros x F B; split; [exact F | change (bpow radix2 1) with 2; lra]). destruct H as (BP & _).
  conjs; first [apply (BP D3X) | apply (BP D3Y) | apply (BP D3Z) | (apply Q; [first [apply (Fr D3X) | apply (Fr D3Y) | apply (Fr D3Z) | apply (Fn D3X) | apply (Fn D3Y) | apply (Fn D3Z) | apply (Fd D3X) | apply (Fd D3Y) | apply (Fd D3Z)] | assumption])].
Qed.
Lemma M_vec (v : Vector3 (num A)) : (forall d, NotTooBig (vcoord3 v d)) -> VFinite3 (m4_mul_vector cM v).
Proof using H.
  intros B. destruct (safe_list [v3x v; v3y v; v3z v]) as (k & K & FT & M); [repeat constructor; first [apply (B D3X) | apply (B D3Y) | apply (B D3Z)]|]. ents M.
  destruct M_ents as ((? & ? & ?) & (? & ? & ?) & (? & ? & ?) & _). intros d. unfold m4_mul_vector, v3_new. destruct d; cbn [vcoord3 v3x v3y v3z]; apply (row_v k); assumption.
Qed.
Lemma M_pt (p : Point3 (num A)) : (forall d, NotTooBig (coord3 p d)) -> Finite3 (m4_mul_point cM p).
Proof using H.
  intros B. assert (Fp : Finite3 p) by (intros d; apply B). pose proof (affine_w3 cM p M_affine Fp) as W. destruct M_ents as ((? & ? & ?) & (? & ? & ?) & (? & ? & ?) & (T1 & T2 & T3)).
  destruct (safe_list [p3x p; p3y p; p3z p; m4_3 cM; m4_7 cM; m4_11 cM]) as (k & K & FT & M).
  { repeat constructor; first [apply (B D3X) | apply (B D3Y) | apply (B D3Z) | apply far_big; assumption]. }
  ents M. assert (FW : forall w : num A, tx w = Fin 1 -> Finite w /\ / 2 <= Rabs (real_of w)). { intros w E. assert (F : Finite w) by (apply Finite_tx; eauto). split; [exact F|]. pose proof (Finite_real w F) as R. rewrite E in R. injection R as <-. rewrite Rabs_R1. lra. }
  destruct (FW _ W) as [F1 F2]. intros d. unfold m4_mul_point, p3_new. destruct d; cbn [coord3 p3x p3y p3z]; apply (row_p k); assumption.
Qed.
Lemma Rsum3_nn (v : Vector3 R) : 0 <= Rsum3 v.
Proof. unfold Rsum3. pose proof (Rabs_pos (v3x v)). pose proof (Rabs_pos (v3y v)). pose proof (Rabs_pos (v3z v)). lra. Qed.
Lemma pv_sum (p : Point3 R) : Rsum3 (pv from p) <= Rsum3 (toV3 p) + fsum.
Proof.
  unfold Rsum3, pv, toV3. cbn [v3x v3y v3z]. assert (Q : forall x y, Rabs (x - y) <= Rabs x + Rabs y) by (intros x y; unfold Rminus; eapply Rle_trans; [apply Rabs_triang|]; rewrite Rabs_Ropp; lra).
  pose proof (Q (p3x p) (p3x (RP3 from))). pose proof (Q (p3y p) (p3y (RP3 from))). pose proof (Q (p3z p) (p3z (RP3 from))). lra.
Qed.
Lemma q_size (p : Point3 (num A)) d : (forall d, NotTooBig (coord3 p d)) -> Rabs (real_of (coord3 (m4_mul_point cF p) d)) <= 1013 / 1000 * (Rsum3 (toV3 (RP3 p)) + fsum) + 24 * t.
Proof using H.
  intros B. assert (Fp : Finite3 p) by (intros c; apply B). pose proof (F_pt from target up H p B d) as F. pose proof (cam_pt from target up _ HL p d Fp F) as E. pose proof (cN_bound from target up _ HL (pv from (RP3 p)) d) as C. pose proof (pv_sum (RP3 p)) as S. pose proof (t_u8 (A:=A)) as (_ & T0 & U).
  pose proof (Rsum3_nn (toV3 (RP3 p))) as S1. pose proof (Rsum3_nn (toV3 (RP3 from))) as S2. assert (X0 : 0 <= Rsum3 (toV3 (RP3 p)) + fsum) by lra. set (X := Rsum3 (toV3 (RP3 p)) + fsum) in *.
  replace (real_of (coord3 (m4_mul_point cF p) d)) with ((real_of (coord3 (m4_mul_point cF p) d) - vcoord3 (cN from target up (pv from (RP3 p))) d) + vcoord3 (cN from target up (pv from (RP3 p))) d) by ring. eapply Rle_trans; [apply Rabs_triang|].
  assert (212 * u * X <= 1 / 10000 * X) by (apply Rmult_le_compat_r; [unfold X; lra | lra]). assert (1012 / 1000 * Rsum3 (pv from (RP3 p)) <= 1012 / 1000 * X) by lra. lra.
Qed.
Lemma w_size (v : Vector3 (num A)) d : (forall d, NotTooBig (vcoord3 v d)) -> Rabs (real_of (vcoord3 (m4_mul_vector cF v) d)) <= 1013 / 1000 * Rsum3 (RV3 v) + 3 * t.
Proof using H.
  intros B. pose proof (F_vec from target up H v B d) as F. pose proof (cam_vec from target up _ HL v d F) as E. pose proof (cN_bound from target up _ HL (RV3 v) d) as C. pose proof (t_u8 (A:=A)) as (_ & T0 & U). pose proof (Rsum3_nn (RV3 v)) as S1. set (X := Rsum3 (RV3 v)) in *.
  replace (real_of (vcoord3 (m4_mul_vector cF v) d)) with ((real_of (vcoord3 (m4_mul_vector cF v) d) - vcoord3 (cN from target up (RV3 v)) d) + vcoord3 (cN from target up (RV3 v)) d) by ring. eapply Rle_trans; [apply Rabs_triang|].
  assert (90 * u * X <= 1 / 10000 * X) by (apply Rmult_le_compat_r; lra). lra.
Qed.
Lemma far_image_p (p : Point3 (num A)) : (forall d, NotFar (coord3 p d)) -> forall d, NotTooBig (coord3 (m4_mul_point cF p) d).
Proof using H.
  intros B d. assert (B' : forall d, NotTooBig (coord3 p d)) by (intros c; apply far_big, B). split; [apply (F_pt from target up H p B')|]. pose proof (q_size p d B') as Q. pose proof (t_u8 (A:=A)) as (T8 & T0 & U). destruct H as (BP & _).
  pose proof (BP D3X) as [_ X]. pose proof (BP D3Y) as [_ Y]. pose proof (BP D3Z) as [_ Z]. pose proof (B D3X) as [_ X']. pose proof (B D3Y) as [_ Y']. pose proof (B D3Z) as [_ Z'].
  clear BP B B'. destruct A as [f P|]; [|exact I]. set (q := real_of _) in *. clearbody q. unfold Rsum3, toV3 in Q. cbn [v3x v3y v3z RP3 p3x p3y p3z coord3] in *.
  replace (safe_exp f) with (eye_exp f + 5)%Z by (destruct f; reflexivity). rewrite bpow_plus. change (bpow radix2 5) with 32. assert (1 <= bpow radix2 (eye_exp f)) by (change 1 with (bpow radix2 0); apply bpow_le; destruct f; cbn; lia). lra.
Qed.
Lemma far_image_v (v : Vector3 (num A)) : (forall d, NotFar (vcoord3 v d)) -> forall d, NotTooBig (vcoord3 (m4_mul_vector cF v) d).
Proof using H.
  intros B d. assert (B' : forall d, NotTooBig (vcoord3 v d)) by (intros c; apply far_big, B). split; [apply (F_vec from target up H v B')|]. pose proof (w_size v d B') as Q. pose proof (t_u8 (A:=A)) as (T8 & T0 & U).
  pose proof (B D3X) as [_ X']. pose proof (B D3Y) as [_ Y']. pose proof (B D3Z) as [_ Z'].
  clear B B'. destruct A as [f P|]; [|exact I]. set (q := real_of _) in *. clearbody q. unfold Rsum3 in Q. cbn [v3x v3y v3z RV3 vcoord3] in *.
  replace (safe_exp f) with (eye_exp f + 5)%Z by (destruct f; reflexivity). rewrite bpow_plus. change (bpow radix2 5) with 32. assert (1 <= bpow radix2 (eye_exp f)) by (change 1 with (bpow radix2 0); apply bpow_le; destruct f; cbn; lia). lra.
Qed.
End B.
Ltac sassum := match goal with H : ?T |- ?G => constr_eq T G; exact H end.
Lemma row4 (u x F0 F1 F2 F3 a b c e Q X E : R) : 0 <= u <= / 16777216 -> Rabs F0 <= 1001 / 1000 -> Rabs F1 <= 1001 / 1000 -> Rabs F2 <= 1001 / 1000 -> 0 <= X ->
  Rabs a <= Q -> Rabs b <= Q -> Rabs c <= Q -> Rabs F3 <= X -> Rabs (x - (F0 * a + F1 * b + F2 * c + F3)) <= ((1 + u) ^ 4 - 1) * (Rabs F0 * Rabs a + Rabs F1 * Rabs b + Rabs F2 * Rabs c + Rabs F3) + E ->
  Rabs (x - (F0 * a + F1 * b + F2 * c + F3)) <= 4001 / 1000 * u * (3003 / 1000 * Q + X) + E.
Proof.
  intros U B0 B1 B2 X0 Ha Hb Hc HF H. eapply Rle_trans; [exact H|]. apply Rplus_le_compat_r.
  assert (G : 0 <= (1 + u) ^ 4 - 1 <= 4001 / 1000 * u). { assert (0 <= u * u <= / 16777216 * u) by nra. assert (0 <= u * u * u <= / 16777216 * u) by nra. assert (0 <= u * u * u * u <= / 16777216 * u) by nra. cbn. lra. }
  assert (M : forall f y, Rabs f <= 1001 / 1000 -> Rabs y <= Q -> Rabs f * Rabs y <= 1001 / 1000 * Q) by (intros; apply Rmult_le_compat; try apply Rabs_pos; assumption).
  pose proof (M _ _ B0 Ha). pose proof (M _ _ B1 Hb). pose proof (M _ _ B2 Hc). assert (P : forall f y, 0 <= Rabs f * Rabs y) by (intros; apply Rmult_le_pos; apply Rabs_pos). pose proof (P F0 a). pose proof (P F1 b). pose proof (P F2 c). pose proof (Rabs_pos F3).
  apply Rmult_le_compat; lra.
Qed.
Lemma C91_computed_sine_pf : forall (A : arith) (from target : Point3 (num A)) (up : Vector3 (num A)), SafeCamera from target up ->
  exists s, LookOk from target up s /\ Rabs (s - Rsine (RV3 up) (Rarrow (RP3 from) (RP3 target))) <= 50 * unit_roundoff A.
Proof.
  intros A from target up H. exists (Rnorm3 (RV3 (cc from target up))). split; [exact (safe_look _ _ _ H) | apply (s_sine _ _ _ H)].
Qed.
Lemma C91_camera_works_pf : forall (A : arith) (prof : profile) (from target : Point3 (num A)) (up : Vector3 (num A)), SafeCamera from target up ->
  exists t, t3_look_at prof from target up = Ret (Ok t) /\
  (forall p, (forall d, NotTooBig (coord3 p d)) -> Finite3 (t3_transform_point t p) /\ Finite3 (t3_transform_point (t3_inverse t) p)) /\
  (forall v, (forall d, NotTooBig (vcoord3 v d)) -> VFinite3 (t3_transform_vector t v) /\ VFinite3 (t3_transform_vector (t3_inverse t) v)).
Proof.
  intros A prof from target up H. destruct (C80_look_at_ok_pf A prof from target up _ (safe_look _ _ _ H)) as (t & E & _). exists t. split; [exact E|]. apply (look_inv _ _ _ _ _ _ (safe_look _ _ _ H)) in E. subst t.
  split; [intros p B; split; [exact (F_pt from target up H p B) | exact (M_pt from target up H p B)] | intros v B; split; [exact (F_vec from target up H v B) | exact (M_vec from target up H v B)]].
Qed.
Lemma C91_camera_view_pf : forall (A : arith) (prof : profile) (from target : Point3 (num A)) (up : Vector3 (num A)) t, SafeCamera from target up -> t3_look_at prof from target up = Ret (Ok t) ->
  let u := unit_roundoff A in let sg := Rsine (RV3 up) (Rarrow (RP3 from) (RP3 target)) in
  (forall d, Rabs (real_of (coord3 (t3_transform_point t from) d)) <= 424 * u * Rsum3 (toV3 (RP3 from)) + 24 * min_subnormal A) /\
  (forall d, Rabs (real_of (coord3 (t3_transform_point t target) d) - match d with D3Z => Rdist3 (RP3 target) (RP3 from) | _ => 0 end)
    <= 222 * u * (Rsum3 (toV3 (RP3 target)) + Rsum3 (toV3 (RP3 from))) + 24 * min_subnormal A) /\
  Rabs (v3x (RV3 (t3_transform_vector t up))) <= 228 * u / sg * Rnorm3 (RV3 up) /\ 73 / 100 * sg * Rnorm3 (RV3 up) <= v3y (RV3 (t3_transform_vector t up)) /\
  (forall v, (forall d, NotTooBig (vcoord3 v d)) -> Rabs (Rnorm3 (RV3 (t3_transform_vector t v)) - Rnorm3 (RV3 v)) <= 372 * u / sg * Rnorm3 (RV3 v) + 6 * min_subnormal A).
Proof.
  intros A prof from target up t H E u sg. pose proof (safe_look _ _ _ H) as L. destruct (s_sine _ _ _ H) as [_ S]. set (s := Rnorm3 (RV3 (cc from target up))) in *. fold sg u in S. pose proof (t_u8 (A:=A)) as (_ & T0 & U). fold u in U.
  assert (P : 0 < sg /\ 2048 * u <= sg) by (destruct H as (_ & _ & _ & _ & _ & P); exact P). apply Rabs_le_inv in S. assert (SS : 97 / 100 * sg <= s) by lra.
  assert (Q : forall c c' n, 0 <= c -> 0 <= n -> c <= 97 / 100 * c' -> c * u / s * n <= c' * u / sg * n).
  { intros c c' n C N K. apply Rmult_le_compat_r; [exact N|]. unfold Rdiv. apply Rmult_le_reg_r with s; [lra|]. rewrite Rmult_assoc, Rinv_l, Rmult_1_r by lra. replace (c' * u * / sg * s) with (c' * u * (/ sg * s)) by ring.
    assert (97 / 100 <= / sg * s). { apply Rmult_le_reg_l with sg; [lra|]. rewrite <- Rmult_assoc, Rinv_r, Rmult_1_l by lra. lra. }
    assert (c * u <= 97 / 100 * c' * u) by (apply Rmult_le_compat_r; lra). assert (c' * u * (97 / 100) <= c' * u * (/ sg * s)) by (apply Rmult_le_compat_l; [apply Rmult_le_pos; lra | assumption]). lra. }
  destruct (C91_camera_works_pf A prof from target up H) as (t' & E' & FP & FV). rewrite E in E'. injection E' as <-.
  assert (BT : forall d, NotTooBig (coord3 target d)) by (destruct H as (_ & B & _); intros d; apply far_big, B). assert (BU : forall d, NotTooBig (vcoord3 up d)) by (destruct H as (_ & _ & _ & B & _); exact B).
  assert (NN : forall v, 0 <= Rnorm3 v) by (intros; apply sqrt_pos).
  split; [intros d; apply (C80_eye_to_origin_pf A prof from target up s t L E d)|]. split; [intros d; apply (C80_target_on_axis_pf A prof from target up s t L E d); apply (FP _ BT)|].
  destruct (C80_up_is_up_pf A prof from target up s t L E (proj1 (FV _ BU))) as [X Y]. fold u in X, Y. split; [eapply Rle_trans; [exact X | apply Q; [lra | apply NN | lra]]|]. split.
  - eapply Rle_trans; [|exact Y]. apply Rmult_le_compat_r; [apply NN | lra]. 
  - intros v B. eapply Rle_trans; [apply (C80_lengths_kept_pf A prof from target up s t v L E); apply (FV _ B)|]. fold u. apply Rplus_le_compat_r. apply Q; [lra | apply NN | lra].
Qed.
Lemma C91_round_trip_pf : forall (A : arith) (prof : profile) (from target : Point3 (num A)) (up : Vector3 (num A)) t, SafeCamera from target up -> t3_look_at prof from target up = Ret (Ok t) ->
  let u := unit_roundoff A in
  (forall p d, (forall d, NotFar (coord3 p d)) -> let r := t3_transform_point (t3_inverse t) (t3_transform_point t p) in
     Finite3 r /\ Rabs (real_of (coord3 r d) - real_of (coord3 p d)) <= 660 * u * (Rsum3 (toV3 (RP3 p)) + Rsum3 (toV3 (RP3 from))) + 80 * min_subnormal A) /\
  (forall v d, (forall d, NotFar (vcoord3 v d)) -> let r := t3_transform_vector (t3_inverse t) (t3_transform_vector t v) in
     VFinite3 r /\ Rabs (real_of (vcoord3 r d) - real_of (vcoord3 v d)) <= 290 * u * Rsum3 (RV3 v) + 20 * min_subnormal A).
Proof.
  intros A prof from target up t H E u. pose proof (safe_look _ _ _ H) as L. set (s := Rnorm3 (RV3 (cc from target up))) in *. pose proof (t_u8 (A:=A)) as (T8 & T0 & U). fold u in U, T8.
  destruct (C80_coordinates_pf A prof from target up s t L E) as [CV CP]. fold u in CV, CP. apply (look_inv _ _ _ _ _ _ L) in E. subst t.
  destruct (back_axes from target up s L) as ((_ & EX) & (_ & EY) & (_ & EZ)). cbv zeta in EX, EY, EZ. rewrite EX, EY, EZ in CV, CP. clear EX EY EZ.
  destruct (cam_frame from target up s L) as (_ & FR & K & _). destruct (fr_ent _ _ _ _ _ _ _ _ _ _ _ U K FR) as ((A1 & A2 & A3) & (B1 & B2 & B3) & (C1 & C2 & C3)).
  pose proof (Rsum3_nn (toV3 (RP3 from))) as S2. split.
  - intros p d B r. pose proof (far_image_p from target up H p B) as BQ. change (m4_mul_point (cF from target up) p) with (t3_transform_point (t3_new (cF from target up) (cM from target up)) p) in BQ.
    set (q := t3_transform_point (t3_new (cF from target up) (cM from target up)) p) in *. assert (Fr : Finite3 r) by exact (M_pt from target up H q BQ). split; [exact Fr|].
    assert (Fp : Finite3 p) by (intros c; apply B). assert (Fq : Finite3 q) by (intros c; apply BQ). specialize (CP p d Fp Fq). cbv zeta in CP. fold q in CP.
    assert (B' : forall d, NotTooBig (coord3 p d)) by (intros c; apply far_big, B). pose proof (fun c => q_size from target up H p c B') as QS. change (m4_mul_point (cF from target up) p) with q in QS. pose proof (QS D3X) as Q1. pose proof (QS D3Y) as Q2. pose proof (QS D3Z) as Q3. clear QS. cbn [coord3] in Q1, Q2, Q3. change (real_of (p3x q)) with (p3x (RP3 q)) in Q1. change (real_of (p3y q)) with (p3y (RP3 q)) in Q2. change (real_of (p3z q)) with (p3z (RP3 q)) in Q3.
    pose proof (C56_matrix_point_accurate_3d_pf A (cM from target up) q d (M_affine from target up) Fq (Fr d)) as X. cbv zeta in X. change (m4_mul_point (cM from target up) q) with r in X. fold u in X.
    pose proof (Rsum3_nn (toV3 (RP3 p))) as S1. assert (S0 : 0 <= Rsum3 (toV3 (RP3 p)) + Rsum3 (toV3 (RP3 from))) by lra. assert (FD : Rabs (coord3 (RP3 from) d) <= Rsum3 (toV3 (RP3 p)) + Rsum3 (toV3 (RP3 from))).
    { assert (Rabs (coord3 (RP3 from) d) <= Rsum3 (toV3 (RP3 from))); [|lra]. unfold Rsum3, toV3. cbn [v3x v3y v3z]. pose proof (Rabs_pos (p3x (RP3 from))). pose proof (Rabs_pos (p3y (RP3 from))). pose proof (Rabs_pos (p3z (RP3 from))). destruct d; cbn [coord3]; lra. }
    set (S := Rsum3 (toV3 (RP3 p)) + Rsum3 (toV3 (RP3 from))) in *.
    assert (XX : Rabs (real_of (coord3 r d) - (vcoord3 (RV3 (cr from target up)) d * p3x (RP3 q) + vcoord3 (RV3 (cn from target up)) d * p3y (RP3 q) + vcoord3 (RV3 (cd from target)) d * p3z (RP3 q) + coord3 (RP3 from) d)) <= 4001 / 1000 * u * (3003 / 1000 * (1013 / 1000 * S + 24 * min_subnormal A) + S) + 3 * min_subnormal A).
    { apply row4; try sassum; try (destruct d; cbn [vcoord3]; sassum). rewrite (cam_real from target up) in X. destruct d; unfold mat_apply, mat_abs, hom3, absP3, LM in X; cbn -[RV3 RP3 real_of pow Rabs] in X; cbn [vcoord3 coord3];
        match type of X with Rabs (_ - ?e) <= _ * ?a + _ => match goal with |- Rabs (_ - ?e') <= _ * ?a' + _ => replace e' with e by ring; replace a' with a by (rewrite ?Rabs_R1, ?Rabs_R0; ring) end end; exact X. }
    change (coord3 (RP3 p) d) with (coord3 (RP3 p) d) in CP. assert (EP : real_of (coord3 p d) = coord3 (RP3 p) d) by (destruct d; reflexivity). rewrite EP.
    match type of XX with Rabs (_ - ?m) <= _ => replace (real_of (coord3 r d) - coord3 (RP3 p) d) with ((real_of (coord3 r d) - m) + (m - coord3 (RP3 p) d)) by ring end. eapply Rle_trans; [apply Rabs_triang|].
    match type of CP with Rabs ?z <= _ => match goal with |- _ + Rabs ?z' <= _ => replace z' with z by ring end end. assert (0 <= u * S) by (apply Rmult_le_pos; lra). assert (u * min_subnormal A <= / 16777216 * min_subnormal A) by (apply Rmult_le_compat_r; lra). lra.
  - intros v d B r. pose proof (far_image_v from target up H v B) as BQ. change (m4_mul_vector (cF from target up) v) with (t3_transform_vector (t3_new (cF from target up) (cM from target up)) v) in BQ.
    set (q := t3_transform_vector (t3_new (cF from target up) (cM from target up)) v) in *. assert (Fr : VFinite3 r) by exact (M_vec from target up H q BQ). split; [exact Fr|].
    assert (Fq : VFinite3 q) by (intros c; apply BQ). specialize (CV v d Fq). cbv zeta in CV. fold q in CV.
    assert (B' : forall d, NotTooBig (vcoord3 v d)) by (intros c; apply far_big, B). pose proof (fun c => w_size from target up H v c B') as QS. change (m4_mul_vector (cF from target up) v) with q in QS. pose proof (QS D3X) as Q1. pose proof (QS D3Y) as Q2. pose proof (QS D3Z) as Q3. clear QS. cbn [vcoord3] in Q1, Q2, Q3. change (real_of (v3x q)) with (v3x (RV3 q)) in Q1. change (real_of (v3y q)) with (v3y (RV3 q)) in Q2. change (real_of (v3z q)) with (v3z (RV3 q)) in Q3.
    pose proof (C56_matrix_vector_accurate_3d_pf A (cM from target up) q d (Fr d)) as X. cbv zeta in X. change (m4_mul_vector (cM from target up) q) with r in X. fold u in X.
    pose proof (Rsum3_nn (RV3 v)) as S0. set (S := Rsum3 (RV3 v)) in *.
    assert (XX : Rabs (real_of (vcoord3 r d) - (vcoord3 (RV3 (cr from target up)) d * v3x (RV3 q) + vcoord3 (RV3 (cn from target up)) d * v3y (RV3 q) + vcoord3 (RV3 (cd from target)) d * v3z (RV3 q) + 0)) <= 4001 / 1000 * u * (3003 / 1000 * (1013 / 1000 * S + 3 * min_subnormal A) + S) + 3 * min_subnormal A).
    { apply row4; try sassum; try (rewrite Rabs_R0; sassum); try (destruct d; cbn [vcoord3]; sassum). rewrite (cam_real from target up) in X.
      assert (G : (1 + u) ^ 3 - 1 <= (1 + u) ^ 4 - 1). { assert (0 <= u * (1 + u) ^ 3) by (apply Rmult_le_pos; [lra | apply pow_le; lra]). replace ((1 + u) ^ 4) with ((1 + u) ^ 3 + u * (1 + u) ^ 3) by ring. lra. }
      eapply Rle_trans; [|apply Rplus_le_compat_r, Rmult_le_compat_r; [|exact G]].
      - destruct d; unfold mat_apply, mat_abs, dir3, absV3, LM in X; cbn -[RV3 RP3 real_of pow Rabs] in X; cbn [vcoord3];
        match type of X with Rabs (_ - ?e) <= _ * ?a + _ => match goal with |- Rabs (_ - ?e') <= _ * ?a' + _ => replace e' with e by ring; replace a' with a by (rewrite ?Rabs_R0; ring) end end; exact X.
      - assert (PP : forall f y, 0 <= Rabs f * Rabs y) by (intros; apply Rmult_le_pos; apply Rabs_pos). repeat apply Rplus_le_le_0_compat; try apply PP; apply Rabs_pos. }
    assert (EP : real_of (vcoord3 v d) = vcoord3 (RV3 v) d) by (destruct d; reflexivity). rewrite EP.
    match type of XX with Rabs (_ - ?m) <= _ => replace (real_of (vcoord3 r d) - vcoord3 (RV3 v) d) with ((real_of (vcoord3 r d) - m) + (m - vcoord3 (RV3 v) d)) by ring end. eapply Rle_trans; [apply Rabs_triang|].
    match type of CV with Rabs ?z <= _ => match goal with |- _ + Rabs ?z' <= _ => replace z' with z by ring end end. assert (0 <= u * S) by (apply Rmult_le_pos; lra). assert (u * min_subnormal A <= / 16777216 * min_subnormal A) by (apply Rmult_le_compat_r; lra). lra.
Qed.
Definition entries4 {S} (m : Matrix4x4 S) := [m4_0 m; m4_1 m; m4_2 m; m4_3 m; m4_4 m; m4_5 m; m4_6 m; m4_7 m; m4_8 m; m4_9 m; m4_10 m; m4_11 m; m4_12 m; m4_13 m; m4_14 m; m4_15 m].
Definition parck (o : outcome (result (Transform3 (num A64)))) : bool := match o with
  | Ret (Ok t) => let fin := forallb (fun x : num A64 => slt (sabs x) sinf) in
    let x := t3_transform_vector (t3_inverse t) v3_x_axis in let z := t3_transform_vector (t3_inverse t) v3_z_axis in
    (fin (entries4 (t3_forward t)) && fin (entries4 (t3_forward (t3_inverse t))) && (seq (v3x x) (v3x v3_y_axis) && seq (v3y x) (v3y v3_y_axis) && seq (v3z x) (v3z v3_y_axis)) && slt (sdiv (d64 9 0) (d64 10 0)) (v3_dot x z))%bool
  | _ => false end.
Lemma C91_parallel_up_accepted_pf : forall prof, let from := mkPoint3 (d64 0 0) (d64 0 0) (d64 0 0) : Point3 (num A64) in let target := mkPoint3 (d64 1 0) (d64 7 0) (d64 3 0) : Point3 (num A64) in
  let up := mkVector3 (d64 3 0) (d64 21 0) (d64 9 0) : Vector3 (num A64) in
  VEq3 up (v3_mul (p3_sub target from) (d64 3 0)) /\
  exists t, t3_look_at prof from target up = Ret (Ok t) /\ MFinite4 (t3_forward t) /\ MFinite4 (t3_forward (t3_inverse t)) /\
  let x := t3_transform_vector (t3_inverse t) v3_x_axis in let z := t3_transform_vector (t3_inverse t) v3_z_axis in
  VEq3 x v3_y_axis /\ Lt (sdiv (d64 9 0) (d64 10 0)) (v3_dot x z).
Proof.
  intros prof. cbv zeta. split; [intros []; vm_compute; reflexivity|].
  match goal with |- exists t, ?l = _ /\ _ => assert (X : parck l = true) by (destruct prof as [[|] [|]]; vm_cast_no_check (eq_refl true)) end.
  destruct (t3_look_at _ _ _ _) as [[t|]|]; try discriminate X. exists t. split; [reflexivity|]. unfold parck in X. cbv zeta in X. rewrite !andb_true_iff in X. destruct X as [[[X1 X2] [[X3 X4] X5]] X6].
  rewrite forallb_forall in X1, X2. split; [apply Forall_forall; exact X1|]. split; [apply Forall_forall; exact X2|]. split; [intros []; assumption | exact X6].
Qed.
