(** Proofs: look_at in floating point (C80). *)
From Coq Require Import Bool NArith ZArith Reals List Lra Lia.
From Flocq Require Import Core.Zaux Core.Raux Core.Defs Core.Generic_fmt Core.FLT IEEE754.BinarySingleNaN.
From Verif Require Import Scalar Types Vector2 Vector3 Point2 Point3 Ray BoundingBox2 BoundingBox3 Transform2 Transform3 Float
  XReal OrdLaws Arith SpecOrder SpecStruct SpecFloat SpecReal SpecErr SpecRot SpecInv SpecTrans SpecLook Adj4 ExactBase ExactMat FloatX XArith FloatLaws FloatTrans ErrBase FloatErr FloatInv
  FloatTri FloatRot FloatInvAcc LookReal LookFrame FloatBig LookCam ExVals.
Import ListNotations.
Local Open Scope R_scope.
Lemma lin_zero_tx {A : arith} (a b c : num A) : Finite a -> Finite b -> Finite c ->
  tx (sadd (sadd (smul a sone) (smul b szero)) (smul c szero)) = tx a /\ tx (sadd (sadd (smul a szero) (smul b sone)) (smul c szero)) = tx b /\ tx (sadd (sadd (smul a szero) (smul b szero)) (smul c sone)) = tx c.
Proof. intros Fa Fb Fc. fin Fa. fin Fb. fin Fc. conjs; txs; reflexivity. Qed.
Lemma t_small_len {A : arith} (v : Vector3 (num A)) : LenOk v -> min_subnormal A <= unit_roundoff A / 1000000 * Rnorm3 (RV3 v).
Proof.
  intros (F & T & P). pose proof (dot3_err v v F) as E. destruct (Rnorm3_sq (RV3 v)) as (N & Q & _ & _). rewrite Q, N in E. pose proof (t_u8 (A:=A)) as (_ & T0 & U). pose proof (t_le_uuu (A:=A)) as TU.
  set (L := Rnorm3 (RV3 v)) in *. set (u := unit_roundoff A) in *. set (t := min_subnormal A) in *. set (d := real_of (v3_dot v v)) in *. clearbody L u t d. apply Rabs_le_inv in E.
  assert (LL : 0 <= L * L) by (apply Rle_0_sqr). assert (D : d <= 11 / 10 * (L * L) + 3 * t). { assert (31 / 10 * u * (L * L) <= 1 / 10 * (L * L)) by (apply Rmult_le_compat_r; lra). lra. }
  assert (T1 : t <= 12 / 10 * u * (L * L)). { assert (u * d <= u * (11 / 10 * (L * L) + 3 * t)) by (apply Rmult_le_compat_l; lra). assert (u * t <= / 16777216 * t) by (apply Rmult_le_compat_r; lra). assert (0 <= u * (L * L)) by (apply Rmult_le_pos; lra). lra. }
  assert (T2 : t * t <= u * u * u * (12 / 10 * u * (L * L))) by (apply Rmult_le_compat; lra).
  assert (B : t <= 11 / 10 * (u * u * L)). { assert (0 <= u * u * L) by (apply Rmult_le_pos; [apply Rle_0_sqr | lra]). apply Rnot_lt_le. intros X. assert (121 / 100 * (u * u * L) * (u * u * L) < t * t) by nra. assert (0 <= u * u * L * (u * u * L)) by (apply Rle_0_sqr). lra. }
  assert (u * u * L <= u * / 16777216 * L) by (apply Rmult_le_compat_r; [lra | apply Rmult_le_compat_l; lra]). lra.
Qed.
Section Fin.
Context {A : arith} (from target : Point3 (num A)) (up : Vector3 (num A)) (s : R).
Notation u := (unit_roundoff A).
Notation t := (min_subnormal A).
Context (H : LookOk from target up s).
Notation cw := (cw from target). Notation ca := (ca up). Notation cd := (cd from target). Notation cc := (cc from target up). Notation cr := (cr from target up). Notation cn := (cn from target up).
Notation cM := (cM from target up). Notation cF := (cF from target up). Notation cN := (cN from target up).
Notation NI := (ent4 (Rinv4 (RM4 cM))).
Notation fsum := (Rsum3 (toV3 (RP3 from))).
Lemma us : u <= 1001 / 1000 * (u / s) /\ u / s <= / 1024 /\ 0 <= u / s /\ u <= s / 1024 /\ 17 * u / s = 17 * (u / s) /\ 0 < s <= 1001 / 1000.
Proof using H.
  destruct (cam_frame from target up s H) as (_ & _ & K & _ & _ & S & _). pose proof (t_u8 (A:=A)) as (_ & _ & U). destruct H as (_ & _ & _ & _ & HS & _).
  assert (E : 17 * u / s = 17 * (u / s)) by (unfold Rdiv; ring). split; [|split; [|split; [|split; [lra | split; [exact E | exact S]]]]].
  - replace (1001 / 1000 * (u / s)) with (u * (1001 / 1000 * / s)) by (unfold Rdiv; ring). rewrite <- (Rmult_1_r u) at 1. apply Rmult_le_compat_l; [lra|]. apply Rmult_le_reg_r with s; [lra|]. rewrite Rmult_assoc, Rinv_l by lra. lra.
  - lra.
  - apply Rmult_le_pos; [lra | left; apply Rinv_0_lt_compat; lra].
Qed.
(* cN is the coordinate map of the frame *)
Lemma cN_coord (v : Vector3 R) : let w := cN v in
  v3x (RV3 cr) * v3x w + v3x (RV3 cn) * v3y w + v3x (RV3 cd) * v3z w = v3x v /\ v3y (RV3 cr) * v3x w + v3y (RV3 cn) * v3y w + v3y (RV3 cd) * v3z w = v3y v /\ v3z (RV3 cr) * v3x w + v3z (RV3 cn) * v3y w + v3z (RV3 cd) * v3z w = v3z v.
Proof using H.
  destruct (cam_frame from target up s H) as (_ & FR & K & _). pose proof (t_u8 (A:=A)) as (_ & _ & U). unfold LookCam.cN. rewrite cam_real. cbv zeta. cbn [v3x v3y v3z]. exact (lm_mul' _ _ _ _ _ _ _ _ _ _ _ (p3x (RP3 from)) (p3y (RP3 from)) (p3z (RP3 from)) U K FR (v3x v) (v3y v) (v3z v)).
Qed.
Lemma cN_dir d : vcoord3 (cN (RV3 cd)) d = match d with D3Z => 1 | _ => 0 end.
Proof using H.
  destruct (cam_frame from target up s H) as (_ & FR & K & _). pose proof (t_u8 (A:=A)) as (_ & _ & U). unfold LookCam.cN. rewrite cam_real.
  pose proof (fun i => lm_mul _ _ _ _ _ _ _ _ _ _ _ (p3x (RP3 from)) (p3y (RP3 from)) (p3z (RP3 from)) U K FR 0 0 1 i) as L.
  destruct d; cbn [vcoord3 v3x v3y v3z].
  - pose proof (L 0%nat ltac:(lia)) as E. cbn [nth] in E. etransitivity; [|exact E]. ring.
  - pose proof (L 1%nat ltac:(lia)) as E. cbn [nth] in E. etransitivity; [|exact E]. ring.
  - pose proof (L 2%nat ltac:(lia)) as E. cbn [nth] in E. etransitivity; [|exact E]. ring.
Qed.
Lemma cN_bound (v : Vector3 R) d : Rabs (vcoord3 (cN v) d) <= 1012 / 1000 * Rsum3 v.
Proof using H.
  assert (Q : forall r, (r < 3)%nat -> Rabs (NI r 0%nat * v3x v + NI r 1%nat * v3y v + NI r 2%nat * v3z v) <= 1012 / 1000 * Rsum3 v).
  { intros r Hr. apply sum_err; apply (cam_lin from target up s H); lia. }
  destruct d; cbn [LookCam.cN vcoord3 v3x v3y v3z]; apply Q; lia.
Qed.
Lemma cN_lin (a : R) (v w : Vector3 R) d : vcoord3 (cN (mkVector3 (a * v3x v + v3x w) (a * v3y v + v3y w) (a * v3z v + v3z w))) d = a * vcoord3 (cN v) d + vcoord3 (cN w) d.
Proof using. destruct d; cbn [LookCam.cN vcoord3 v3x v3y v3z]; ring. Qed.
Lemma cN_norm (v : Vector3 R) : Rabs (Rnorm3 v - Rnorm3 (cN v)) <= 74 * (u / s) * Rnorm3 v.
Proof using H.
  destruct (cam_frame from target up s H) as (_ & FR & K & _). pose proof (t_u8 (A:=A)) as (_ & _ & U). destruct us as (U1 & U2 & U3 & _ & EK & _).
  pose proof (fr_iso _ _ _ _ _ _ _ _ _ _ _ U K FR (v3x (cN v)) (v3y (cN v)) (v3z (cN v))) as I. cbv zeta in I. destruct (cN_coord v) as (C1 & C2 & C3). cbv zeta in C1, C2, C3. rewrite C1, C2, C3 in I.
  destruct (Rnorm3_sq' v) as [N1 N2]. destruct (Rnorm3_sq' (cN v)) as [N3 N4]. rewrite N1, N3 in I.
  assert (B : Rabs (Rnorm3 v * Rnorm3 v - Rnorm3 (cN v) * Rnorm3 (cN v)) <= 7106 / 100 * (u / s) * (Rnorm3 (cN v) * Rnorm3 (cN v))).
  { eapply Rle_trans; [exact I|]. apply Rmult_le_compat_r; [apply Rle_0_sqr|]. rewrite EK. lra. }
  eapply Rle_trans; [apply (len_close _ _ (7106 / 100 * (u / s)) N2 N4 ltac:(lra) B)|]. rewrite <- !Rmult_assoc. apply Rmult_le_compat_r; [assumption|]. lra.
Qed.

(* the exact view direction *)
Notation W := (mkVector3 (p3x (RP3 target) - p3x (RP3 from)) (p3y (RP3 target) - p3y (RP3 from)) (p3z (RP3 target) - p3z (RP3 from))).
Lemma w_err d : Rabs (vcoord3 (RV3 cw) d - vcoord3 W d) <= u * Rabs (vcoord3 W d).
Proof using H.
  destruct (cam_frame from target up s H) as ((Fw & _) & _). pose proof (Fw d) as F.
  assert (Q : forall a b : num A, Finite (ssub a b) -> Rabs (real_of (ssub a b) - (real_of a - real_of b)) <= u * Rabs (real_of a - real_of b)).
  { intros a b Fs. destruct (err_sub _ _ Fs) as (_ & _ & e & E & ->). replace ((real_of a - real_of b) * (1 + e) - (real_of a - real_of b)) with (e * (real_of a - real_of b)) by ring. rewrite Rabs_mult. apply Rmult_le_compat_r; [apply Rabs_pos | exact E]. }
  destruct d; cbn [vcoord3 LookCam.cw RV3 v3x v3y v3z] in *; apply Q; exact F.
Qed.
Lemma w_norm : Rabs (Rnorm3 (RV3 cw) - Rnorm3 W) <= u * Rnorm3 W /\ 0 < Rnorm3 W /\ Rnorm3 W <= Rsum3 W /\ Rsum3 W <= Rsum3 (toV3 (RP3 target)) + fsum /\ Rsum3 (RV3 cw) <= (1 + u) * Rsum3 W /\ 0 < Rnorm3 (RV3 cw) <= (1 + u) * Rsum3 W.
Proof using H.
  pose proof (t_u8 (A:=A)) as (_ & _ & U). destruct H as ((_ & _ & P) & _). change (p3_sub target from) with cw in P.
  destruct (Rnorm3_sq' W) as [N1 N2]. destruct (Rnorm3_sq' (RV3 cw)) as [N3 N4]. pose proof (w_err D3X) as E1. pose proof (w_err D3Y) as E2. pose proof (w_err D3Z) as E3. cbn [vcoord3] in E1, E2, E3.
  set (N := Rnorm3 W) in *. set (M := Rnorm3 (RV3 cw)) in *.
  assert (D : Rabs (M - N) <= u * N).
  { apply (rev_tri (v3x (RV3 cw)) (v3y (RV3 cw)) (v3z (RV3 cw)) (v3x W) (v3y W) (v3z W) M N (u * N) N4 N2); [apply Rmult_le_pos; lra | exact N3 | exact N1 |].
    assert (Q : forall x y, Rabs (x - y) <= u * Rabs y -> (x - y) * (x - y) <= u * u * (y * y)).
    { intros x y B. rewrite <- (Rabs_pos_eq ((x - y) * (x - y))) by apply Rle_0_sqr. rewrite Rabs_mult. replace (u * u * (y * y)) with ((u * Rabs y) * (u * Rabs y)); [apply Rmult_le_compat; try apply Rabs_pos; assumption|].
      replace (u * Rabs y * (u * Rabs y)) with (u * u * (Rabs y * Rabs y)) by ring. rewrite <- Rabs_mult, (Rabs_pos_eq (y * y)) by apply Rle_0_sqr. reflexivity. }
    pose proof (Q _ _ E1). pose proof (Q _ _ E2). pose proof (Q _ _ E3). replace (u * N * (u * N)) with (u * u * (N * N)) by ring. rewrite <- N1. lra. }
  assert (N0 : 0 < N). { destruct (Rle_lt_or_eq_dec 0 N N2) as [?|E]; [assumption|]. exfalso. rewrite <- E, Rmult_0_r, Rminus_0_r, Rabs_pos_eq in D by lra. lra. }
  assert (NS : N <= Rsum3 W). { apply Rsqr_incr_0_var; [|unfold Rsum3; pose proof (Rabs_pos (v3x W)); pose proof (Rabs_pos (v3y W)); pose proof (Rabs_pos (v3z W)); lra]. unfold Rsqr. rewrite <- N1. unfold Rsum3.
    pose proof (Rabs_pos (v3x W)). pose proof (Rabs_pos (v3y W)). pose proof (Rabs_pos (v3z W)). assert (Q : forall x, x * x = Rabs x * Rabs x) by (intros x; rewrite <- Rabs_mult; symmetry; apply Rabs_pos_eq, Rle_0_sqr). rewrite (Q (v3x W)), (Q (v3y W)), (Q (v3z W)). nra. }
  assert (SS : Rsum3 (RV3 cw) <= (1 + u) * Rsum3 W). { assert (Q : forall x y, Rabs (x - y) <= u * Rabs y -> Rabs x <= (1 + u) * Rabs y) by (intros x y B; replace x with ((x - y) + y) by ring; eapply Rle_trans; [apply Rabs_triang | lra]).
    pose proof (Q _ _ E1). pose proof (Q _ _ E2). pose proof (Q _ _ E3). unfold Rsum3. lra. }
  split; [exact D|]. split; [exact N0|]. split; [exact NS|]. split; [|split; [exact SS|]].
  - unfold Rsum3, toV3. cbn [v3x v3y v3z]. assert (Q : forall x y, Rabs (x - y) <= Rabs x + Rabs y) by (intros x y; unfold Rminus; eapply Rle_trans; [apply Rabs_triang|]; rewrite Rabs_Ropp; lra).
    pose proof (Q (p3x (RP3 target)) (p3x (RP3 from))). pose proof (Q (p3y (RP3 target)) (p3y (RP3 from))). pose proof (Q (p3z (RP3 target)) (p3z (RP3 from))). lra.
  - split; [assumption|]. apply Rabs_le_inv in D. assert (u * N <= u * Rsum3 W) by (apply Rmult_le_compat_l; lra). lra.
Qed.
Lemma dir_err d : Rabs (vcoord3 (RV3 cd) d - vcoord3 W d / Rnorm3 W) <= 10 * u.
Proof using H.
  destruct w_norm as (D & N0 & _ & _ & _ & M0 & _). pose proof (t_u8 (A:=A)) as (T8 & T0 & U). destruct H as (Hw & _). change (p3_sub target from) with cw in Hw. destruct (unit_facts cw Hw) as (_ & _ & _ & C & B). specialize (C d). specialize (B d). pose proof (w_err d) as E.
  change (v3_normalize cw) with cd in C. set (x := vcoord3 (RV3 cw) d) in *. set (y := vcoord3 W d) in *. set (M := Rnorm3 (RV3 cw)) in *. set (N := Rnorm3 W) in *.
  assert (Y : Rabs y <= N) by apply comp_le_norm3.
  assert (Q : Rabs (x / M - y / N) <= 2 * u).
  { replace (x / M - y / N) with ((x / M * (N - M) + (x - y)) * / N) by (field; lra). rewrite Rabs_mult, Rabs_inv, (Rabs_pos_eq N) by lra. apply Rmult_le_reg_r with N; [assumption|]. rewrite Rmult_assoc, Rinv_l, Rmult_1_r by lra.
    eapply Rle_trans; [apply Rabs_triang|]. rewrite Rabs_mult. assert (Rabs (x / M) * Rabs (N - M) <= 1 * (u * N)) by (apply Rmult_le_compat; try apply Rabs_pos; [assumption | now rewrite Rabs_minus_sym]). assert (u * Rabs y <= u * N) by (apply Rmult_le_compat_l; lra). lra. }
  replace (vcoord3 (RV3 cd) d - y / N) with ((vcoord3 (RV3 cd) d - x / M) + (x / M - y / N)) by ring. eapply Rle_trans; [apply Rabs_triang|].
  assert (7 * u * Rabs (x / M) <= 7 * u * 1) by (apply Rmult_le_compat_l; lra). lra.
Qed.
Lemma target_exact d : Rabs (vcoord3 (cN (pv from (RP3 target))) d - match d with D3Z => Rnorm3 W | _ => 0 end) <= 10 * u * Rsum3 W.
Proof using H.
  destruct w_norm as (D & N0 & NS & _ & SS & M0 & MS). pose proof (t_u8 (A:=A)) as (T8 & T0 & U). destruct H as (Hw & _). change (p3_sub target from) with cw in Hw. destruct (unit_facts cw Hw) as (_ & _ & _ & C & B). change (v3_normalize cw) with cd in C.
  set (M := Rnorm3 (RV3 cw)) in *. set (N := Rnorm3 W) in *.
  (* W = M * cd + e *)
  set (e := mkVector3 (v3x W - M * v3x (RV3 cd)) (v3y W - M * v3y (RV3 cd)) (v3z W - M * v3z (RV3 cd))).
  assert (Ee : forall k, Rabs (vcoord3 e k) <= u * Rabs (vcoord3 W k) + (7 * u * Rabs (vcoord3 (RV3 cw) k) + t * M)).
  { intros k. specialize (C k). pose proof (w_err k) as Ek. assert (X : Rabs (M * vcoord3 (RV3 cd) k - vcoord3 (RV3 cw) k) <= 7 * u * Rabs (vcoord3 (RV3 cw) k) + t * M).
    { replace (M * vcoord3 (RV3 cd) k - vcoord3 (RV3 cw) k) with (M * (vcoord3 (RV3 cd) k - vcoord3 (RV3 cw) k / M)) by (field; lra). rewrite Rabs_mult, (Rabs_pos_eq M) by lra.
      apply Rle_trans with (M * (7 * u * Rabs (vcoord3 (RV3 cw) k / M) + t)); [apply Rmult_le_compat_l; lra|]. unfold Rdiv. rewrite Rabs_mult, Rabs_inv, (Rabs_pos_eq M) by lra. right. field. lra. }
    replace (vcoord3 e k) with ((vcoord3 W k - vcoord3 (RV3 cw) k) - (M * vcoord3 (RV3 cd) k - vcoord3 (RV3 cw) k)) by (destruct k; unfold e; cbn [vcoord3 v3x v3y v3z]; ring).
    unfold Rminus at 1. eapply Rle_trans; [apply Rabs_triang|]. rewrite Rabs_Ropp, (Rabs_minus_sym (vcoord3 W k)). lra. }
  assert (Se : Rsum3 e <= u * Rsum3 W + 7 * u * Rsum3 (RV3 cw) + 3 * (t * M)) by (pose proof (Ee D3X); pose proof (Ee D3Y); pose proof (Ee D3Z); cbn [vcoord3] in *; unfold Rsum3; lra).
  assert (Sb : Rsum3 e <= 801 / 100 * u * Rsum3 W).
  { assert (S0 : 0 <= Rsum3 W) by lra. assert (7 * u * Rsum3 (RV3 cw) <= 7 * u * ((1 + u) * Rsum3 W)) by (apply Rmult_le_compat_l; lra). assert (t * M <= u / 1000000 * ((1 + u) * Rsum3 W)) by (apply Rmult_le_compat; lra).
    assert (0 <= u * Rsum3 W) by (apply Rmult_le_pos; lra). assert (u * (u * Rsum3 W) <= / 16777216 * (u * Rsum3 W)) by (apply Rmult_le_compat_r; lra). lra. }
  assert (EQ : vcoord3 (cN (pv from (RP3 target))) d = M * vcoord3 (cN (RV3 cd)) d + vcoord3 (cN e) d).
  { rewrite <- cN_lin. f_equal. f_equal. unfold pv, e. cbn [v3x v3y v3z]. f_equal; ring. }
  rewrite EQ, cN_dir. pose proof (cN_bound e d) as CB. assert (US : 0 <= u * Rsum3 W) by (apply Rmult_le_pos; lra).
  assert (CB' : Rabs (vcoord3 (cN e) d) <= 811 / 100 * u * Rsum3 W) by lra. assert (UN : u * N <= u * Rsum3 W) by (apply Rmult_le_compat_l; lra).
  destruct d; cbn match; apply Rabs_le_inv in CB', D; apply Rabs_le; split; lra.
Qed.
Lemma up_exact : Rabs (v3x (cN (RV3 up))) <= 60 * (u / s) * Rnorm3 (RV3 up) /\ (98 / 100 * s - 22 * u) * Rnorm3 (RV3 up) <= v3y (cN (RV3 up)).
Proof using H.
  destruct (cam_frame from target up s H) as ((_ & Fa & Fd & _ & _) & FR & K & PA & RC & S & NA). pose proof (t_u8 (A:=A)) as (T8 & T0 & U). destruct us as (U1 & U2 & U3 & U4 & EK & _).
  assert (ND : Rabs (rd (RV3 cd) (RV3 cd) - 1) <= 17 * u) by (destruct FR as (_ & X & _); unfold rd; exact X). assert (NR : Rabs (rd (RV3 cr) (RV3 cr) - 1) <= 17 * u) by (destruct FR as (X & _); unfold rd; exact X).
  destruct (cross_facts ca cd Fa Fd NA ND) as [_ Ec]. change (v3_cross ca cd) with cc in Ec. destruct (norm_le1 _ NR) as [_ SR].
  pose proof (lm_D _ _ _ _ _ _ _ _ _ _ _ U K FR) as LDb. 
  pose proof (lm_rows (v3x (RV3 cr)) (v3y (RV3 cr)) (v3z (RV3 cr)) (v3x (RV3 cn)) (v3y (RV3 cn)) (v3z (RV3 cn)) (v3x (RV3 cd)) (v3y (RV3 cd)) (v3z (RV3 cd)) (p3x (RP3 from)) (p3y (RP3 from)) (p3z (RP3 from))) as ((E1 & E2 & E3) & (E4 & E5 & E6) & _).
  pose proof (fr_up _ _ _ _ _ _ _ _ _ _ _ U K FR (v3x (RV3 ca)) (v3y (RV3 ca)) (v3z (RV3 ca)) NA PA) as UP. rewrite EK in UP.
  destruct H as (_ & Hu & _). destruct (unit_facts up Hu) as (_ & _ & L0 & C & B). change (v3_normalize up) with ca in C. set (L := Rnorm3 (RV3 up)) in *.
  set (D := LD (v3x (RV3 cr)) (v3y (RV3 cr)) (v3z (RV3 cr)) (v3x (RV3 cn)) (v3y (RV3 cn)) (v3z (RV3 cn)) (v3x (RV3 cd)) (v3y (RV3 cd)) (v3z (RV3 cd))) in *.
  assert (NX : Rabs (v3x (cN (RV3 ca))) <= 10102 / 10000 * (2002 / 1000 * (17 * (u / s)) + 4 * u)).
  { unfold LookCam.cN. rewrite cam_real. cbn [v3x]. rewrite E1, E2, E3. fold D.
    match goal with |- Rabs ?e <= _ => replace e with (((v3y (RV3 cn) * v3z (RV3 cd) - v3z (RV3 cn) * v3y (RV3 cd)) * v3x (RV3 ca) + (v3z (RV3 cn) * v3x (RV3 cd) - v3x (RV3 cn) * v3z (RV3 cd)) * v3y (RV3 ca) + (v3x (RV3 cn) * v3y (RV3 cd) - v3y (RV3 cn) * v3x (RV3 cd)) * v3z (RV3 ca)) * / D) by (field; lra) end.
    rewrite Rabs_mult, Rabs_inv, (Rabs_pos_eq D) by lra. rewrite (Rmult_comm (10102 / 10000)). apply Rmult_le_compat; [apply Rabs_pos | left; apply Rinv_0_lt_compat; lra | exact UP |].
    apply Rmult_le_reg_r with D; [lra|]. rewrite Rinv_l by lra. lra. }
  assert (NY : 999 / 1000 * (s - 8 * u * s - 4 * u) <= v3y (cN (RV3 ca))).
  { unfold LookCam.cN. rewrite cam_real. cbn [v3y]. rewrite E4, E5, E6. fold D.
    match goal with |- _ <= ?e => replace e with (rd (RV3 cr) (rx (RV3 ca) (RV3 cd)) * / D) by (unfold rd, rx; cbn [v3x v3y v3z]; field; lra) end.
    pose proof (sum_err _ _ _ (v3x (RV3 cr)) (v3y (RV3 cr)) (v3z (RV3 cr)) _ (Ec D3X) (Ec D3Y) (Ec D3Z)) as EE. cbn [vcoord3] in EE. change (Rabs (v3x (RV3 cr)) + Rabs (v3y (RV3 cr)) + Rabs (v3z (RV3 cr))) with (Rsum3 (RV3 cr)) in EE.
    assert (17 / 8 * u * Rsum3 (RV3 cr) <= 17 / 8 * u * (7 / 4 * (100001 / 100000))) by (apply Rmult_le_compat_l; lra).
    assert (Y : s - 8 * u * s - 4 * u <= rd (RV3 cr) (rx (RV3 ca) (RV3 cd))) by (apply Rabs_le_inv in EE; unfold rd in *; lra).
    assert (Y0 : 0 <= s - 8 * u * s - 4 * u) by (assert (u * s <= / 16777216 * s) by (apply Rmult_le_compat_r; lra); lra).
    rewrite Rmult_comm. apply Rmult_le_compat; [assumption | lra | exact Y |]. apply Rmult_le_reg_r with D; [lra|]. rewrite Rinv_l by lra. lra. }
  (* up = L * (ca + e) *)
  set (e := mkVector3 (v3x (RV3 up) / L - v3x (RV3 ca)) (v3y (RV3 up) / L - v3y (RV3 ca)) (v3z (RV3 up) / L - v3z (RV3 ca))).
  assert (Ee : forall k, Rabs (vcoord3 e k) <= 7001 / 1000 * u).
  { intros k. specialize (C k). specialize (B k). assert (7 * u * Rabs (vcoord3 (RV3 up) k / L) <= 7 * u * 1) by (apply Rmult_le_compat_l; lra).
    replace (vcoord3 e k) with (- (vcoord3 (RV3 ca) k - vcoord3 (RV3 up) k / L)) by (destruct k; unfold e; cbn [vcoord3 v3x v3y v3z]; ring). rewrite Rabs_Ropp. lra. }
  assert (Se : Rsum3 e <= 21003 / 1000 * u) by (pose proof (Ee D3X); pose proof (Ee D3Y); pose proof (Ee D3Z); cbn [vcoord3] in *; unfold Rsum3; lra).
  assert (EQ : forall d, vcoord3 (cN (RV3 up)) d = L * (vcoord3 (cN (RV3 ca)) d + vcoord3 (cN e) d)).
  { intros d. rewrite <- (Rmult_1_l (vcoord3 (cN (RV3 ca)) d)), <- cN_lin. destruct d; unfold e; cbn [LookCam.cN vcoord3 v3x v3y v3z RV3]; field; lra. }
  pose proof (cN_bound e D3X) as B1. pose proof (cN_bound e D3Y) as B2. pose proof (EQ D3X) as Q1. pose proof (EQ D3Y) as Q2. cbn [vcoord3] in *. rewrite Q1, Q2. split.
  - rewrite Rabs_mult, (Rabs_pos_eq L), (Rmult_comm L) by lra. apply Rmult_le_compat_r; [lra|]. eapply Rle_trans; [apply Rabs_triang|]. lra.
  - rewrite (Rmult_comm L). apply Rmult_le_compat_r; [lra|]. apply Rabs_le_inv in B2. assert (u * s <= / 16777216 * s) by (apply Rmult_le_compat_r; lra). lra.
Qed.
End Fin.
Lemma origin_tx {A : arith} (a b c e : num A) : Finite a -> Finite b -> Finite c -> Finite e ->
  tx (sdiv (sadd (sadd (sadd (smul a szero) (smul b szero)) (smul c szero)) e) (sadd (sadd (sadd (smul szero szero) (smul szero szero)) (smul szero szero)) sone)) = tx e.
Proof. intros Fa Fb Fc Fe. fin Fa. fin Fb. fin Fc. fin Fe. rewrite div_1; txs; reflexivity. Qed.
Lemma back_axes {A : arith} (from target : Point3 (num A)) (up : Vector3 (num A)) s : LookOk from target up s -> let back := t3_inverse (t3_new (cF from target up) (cM from target up)) in
  (VFinite3 (t3_transform_vector back v3_x_axis) /\ RV3 (t3_transform_vector back v3_x_axis) = RV3 (cr from target up)) /\
  (VFinite3 (t3_transform_vector back v3_y_axis) /\ RV3 (t3_transform_vector back v3_y_axis) = RV3 (cn from target up)) /\
  (VFinite3 (t3_transform_vector back v3_z_axis) /\ RV3 (t3_transform_vector back v3_z_axis) = RV3 (cd from target)).
Proof.
  intros H back. destruct (cam_frame from target up s H) as ((_ & _ & Fd & Fr & Fn) & _).
  assert (X : forall d, tx (vcoord3 (t3_transform_vector back v3_x_axis) d) = tx (vcoord3 (cr from target up) d)) by (intros []; apply lin_zero_tx; first [apply (Fr D3X) | apply (Fr D3Y) | apply (Fr D3Z) | apply (Fn D3X) | apply (Fn D3Y) | apply (Fn D3Z) | apply (Fd D3X) | apply (Fd D3Y) | apply (Fd D3Z)]).
  assert (Y : forall d, tx (vcoord3 (t3_transform_vector back v3_y_axis) d) = tx (vcoord3 (cn from target up) d)) by (intros []; apply lin_zero_tx; first [apply (Fr D3X) | apply (Fr D3Y) | apply (Fr D3Z) | apply (Fn D3X) | apply (Fn D3Y) | apply (Fn D3Z) | apply (Fd D3X) | apply (Fd D3Y) | apply (Fd D3Z)]).
  assert (Z : forall d, tx (vcoord3 (t3_transform_vector back v3_z_axis) d) = tx (vcoord3 (cd from target) d)) by (intros []; apply lin_zero_tx; first [apply (Fr D3X) | apply (Fr D3Y) | apply (Fr D3Z) | apply (Fn D3X) | apply (Fn D3Y) | apply (Fn D3Z) | apply (Fd D3X) | apply (Fd D3Y) | apply (Fd D3Z)]).
  assert (RV : forall a b : Vector3 (num A), (forall d, tx (vcoord3 a d) = tx (vcoord3 b d)) -> VFinite3 b -> VFinite3 a /\ RV3 a = RV3 b).
  { intros a b T Fb. assert (Q : forall d, Finite (vcoord3 a d) /\ real_of (vcoord3 a d) = real_of (vcoord3 b d)). { intros d. destruct (real_of_eq _ _ (T d)) as [F V]. assert (Finite (vcoord3 a d)) by (apply F, Fb). split; [assumption | now apply V]. }
    split; [intros d; apply Q|]. unfold RV3. f_equal; [apply (Q D3X) | apply (Q D3Y) | apply (Q D3Z)]. }
  split; [exact (RV _ _ X Fr)|]. split; [exact (RV _ _ Y Fn)|]. exact (RV _ _ Z Fd).
Qed.
Lemma cam_target {A : arith} (from target : Point3 (num A)) (up : Vector3 (num A)) s : LookOk from target up s -> Finite3 target.
Proof.
  intros H. destruct (cam_frame from target up s H) as ((Fw & _) & _). intros d. specialize (Fw d). destruct d; cbn [vcoord3 coord3 cw] in *; unfold p3_sub, v3_new in Fw; cbn [v3x v3y v3z] in Fw; destruct (err_sub _ _ Fw) as (F & _); exact F.
Qed.
Lemma eye_fin {A : arith} (from target : Point3 (num A)) (up : Vector3 (num A)) s : LookOk from target up s -> Finite3 (m4_mul_point (cF from target up) from).
Proof.
  intros H. pose proof (cam_from from target up s H) as Ff. destruct (cam_F from target up s H) as (FF & _ & m & M0 & K & GM & BF). pose proof (cam_w from target up s H) as W. pose proof (cam_wsum from target up s H from Ff) as WS. pose proof (t_u8 (A:=A)) as (_ & T0 & U).
  destruct (cam_G from target up s H) as (G2 & _ & GS). unfold FS in GS.
  assert (LIN : forall r c (x : num A), (r < 3)%nat -> (c < 3)%nat -> real_of x = ent4 (RM4 (cF from target up)) r c -> Finite x -> Bk 1 x).
  { intros r c x Hr Hc E Fx. split; [exact Fx|]. destruct (cam_lin from target up s H r c Hr Hc) as [L1 L2]. rewrite E. replace (ent4 _ r c) with ((ent4 (RM4 (cF from target up)) r c - ent4 (Rinv4 (RM4 (cM from target up))) r c) + ent4 (Rinv4 (RM4 (cM from target up))) r c) by ring. eapply Rle_trans; [apply Rabs_triang|]. replace (bpow radix2 1) with 2 by (cbn; lra). lra. }
  assert (PF : Bk m (p3x from) /\ Bk m (p3y from) /\ Bk m (p3z from)).
  { pose proof (Rabs_pos (p3x (RP3 from))). pose proof (Rabs_pos (p3y (RP3 from))). pose proof (Rabs_pos (p3z (RP3 from))). cbn [RP3 p3x p3y p3z] in *. split; [|split]; (split; [first [apply (Ff D3X) | apply (Ff D3Y) | apply (Ff D3Z)] | lra]). }
  destruct PF as (P1 & P2 & P3). 
  assert (ROW : forall a b c e w : num A, Bk 1 a -> Bk 1 b -> Bk 1 c -> Bk (m + 8) e -> Finite w -> / 2 <= Rabs (real_of w) -> Finite (sdiv (sadd (sadd (sadd (smul a (p3x from)) (smul b (p3y from))) (smul c (p3z from))) e) w)).
  { intros a b c e w Ha Hb Hc He Fw Lw. assert (P : forall i, (i <= m + 40)%Z -> okexp A i) by (intros; eapply okexp_le; eassumption).
    assert (Q1 : Bk (1 + m) (smul a (p3x from))) by (apply Bk_mul; [assumption | assumption | lia | apply P; lia]). assert (Q2 : Bk (1 + m) (smul b (p3y from))) by (apply Bk_mul; [assumption | assumption | lia | apply P; lia]). assert (Q3 : Bk (1 + m) (smul c (p3z from))) by (apply Bk_mul; [assumption | assumption | lia | apply P; lia]).
    apply (Bk_div (m + 20)); [|assumption | assumption | lia | apply P; lia]. 
    apply Bk_le with (Z.max (Z.max (Z.max (1 + m) (1 + m) + 1) (1 + m) + 1) (m + 8) + 1)%Z; [|lia]. apply Bk_add; [|assumption | lia | apply P; lia]. apply Bk_add; [|assumption | lia | apply P; lia]. apply Bk_add; [assumption | assumption | lia | apply P; lia]. }
  unfold MFinite4 in FF. unfold m4_comps in BF. repeat match goal with H : Forall _ (_ :: _) |- _ => let F := fresh "L" in let H' := fresh "H" in inversion H as [|? ? F H']; subst; clear H; rename H' into H end.
  assert (FW : Finite (sadd (sadd (sadd (smul (m4_12 (cF from target up)) (p3x from)) (smul (m4_13 (cF from target up)) (p3y from))) (smul (m4_14 (cF from target up)) (p3z from))) (m4_15 (cF from target up))) /\ / 2 <= Rabs (real_of (sadd (sadd (sadd (smul (m4_12 (cF from target up)) (p3x from)) (smul (m4_13 (cF from target up)) (p3y from))) (smul (m4_14 (cF from target up)) (p3z from))) (m4_15 (cF from target up))))).
  { destruct (real_of_eq _ _ WS) as [FW' VW]. match goal with |- Finite ?w /\ _ => assert (Q : Finite w) by (apply FW'; assumption) end. split; [exact Q|]. rewrite (VW Q). change (ent4 (RM4 (cF from target up)) 3%nat 3%nat) with (real_of (m4_15 (cF from target up))) in W. apply Rabs_le_inv in W. rewrite Rabs_pos_eq; lra. }
  destruct FW as [FW LW]. intros d. unfold m4_mul_point, p3_new. destruct d; cbn [coord3 p3x p3y p3z]; apply ROW; try assumption; [apply (LIN 0%nat 0%nat) | apply (LIN 0%nat 1%nat) | apply (LIN 0%nat 2%nat) | apply (LIN 1%nat 0%nat) | apply (LIN 1%nat 1%nat) | apply (LIN 1%nat 2%nat) | apply (LIN 2%nat 0%nat) | apply (LIN 2%nat 1%nat) | apply (LIN 2%nat 2%nat)]; try lia; try reflexivity; assumption.
Qed.
Lemma look_inv {A : arith} prof (from target : Point3 (num A)) (up : Vector3 (num A)) s t : LookOk from target up s -> t3_look_at prof from target up = Ret (Ok t) -> t = t3_new (cF from target up) (cM from target up).
Proof. intros H E. unfold t3_look_at in E. change (m4_inverse_look_at from target up) with (cM from target up) in E. rewrite (cam_ok from target up s H) in E. cbn in E. injection E. congruence. Qed.
Lemma cM_fin {A : arith} (from target : Point3 (num A)) (up : Vector3 (num A)) s : LookOk from target up s -> MFinite4 (cM from target up).
Proof.
  intros H. destruct (cam_bk from target up s H) as (m & _ & _ & _ & ((F0 & _) & (F1 & _) & (F2 & _) & (F3 & _)) & ((F4 & _) & (F5 & _) & (F6 & _) & (F7 & _)) & ((F8 & _) & (F9 & _) & (F10 & _) & (F11 & _)) & (E12 & E13 & E14 & E15)).
  unfold MFinite4. rewrite E12, E13, E14, E15. pose proof (proj1 (Zr_0 (A:=A))). pose proof (proj1 (real_of_1 (A:=A))). repeat (constructor; [assumption|]). constructor.
Qed.
Lemma sumsq3 (a b c x y z e : R) : 0 <= e -> Rabs (a - x) <= e -> Rabs (b - y) <= e -> Rabs (c - z) <= e -> (a - x) * (a - x) + (b - y) * (b - y) + (c - z) * (c - z) <= (7 / 4 * e) * (7 / 4 * e).
Proof.
  intros E H1 H2 H3. assert (Q : forall q, Rabs q <= e -> q * q <= e * e). { intros q Hq. rewrite <- (Rabs_pos_eq (q * q)) by apply Rle_0_sqr. rewrite Rabs_mult. apply Rmult_le_compat; try apply Rabs_pos; assumption. }
  pose proof (Q _ H1). pose proof (Q _ H2). pose proof (Q _ H3). assert (0 <= e * e) by apply Rle_0_sqr. lra.
Qed.
Lemma sum_norm3 (v : Vector3 R) : Rsum3 v <= 7 / 4 * Rnorm3 v.
Proof.
  destruct (Rnorm3_sq' v) as [N P]. set (L := Rnorm3 v) in *. clearbody L. unfold Rsum3. pose proof (Rabs_pos (v3x v)) as P1. pose proof (Rabs_pos (v3y v)) as P2. pose proof (Rabs_pos (v3z v)) as P3.
  assert (Q : forall x, x * x = Rabs x * Rabs x) by (intros x; rewrite <- Rabs_mult; symmetry; apply Rabs_pos_eq, Rle_0_sqr). rewrite (Q (v3x v)), (Q (v3y v)), (Q (v3z v)) in N.
  set (a := Rabs (v3x v)) in *. set (b := Rabs (v3y v)) in *. set (c := Rabs (v3z v)) in *. clearbody a b c. apply Rsqr_incr_0_var; [|lra]. unfold Rsqr. 
  assert (0 <= (a - b) * (a - b)) by apply Rle_0_sqr. assert (0 <= (a - c) * (a - c)) by apply Rle_0_sqr. assert (0 <= (b - c) * (b - c)) by apply Rle_0_sqr. assert (0 <= L * L) by apply Rle_0_sqr. lra.
Qed.
Lemma norm_dist (p q : Point3 R) : Rnorm3 (mkVector3 (p3x p - p3x q) (p3y p - p3y q) (p3z p - p3z q)) = Rdist3 p q.
Proof. reflexivity. Qed.
Lemma C80_look_at_ok_pf : forall (A : arith) (prof : profile) (from target : Point3 (num A)) (up : Vector3 (num A)) (s : R), LookOk from target up s ->
  exists t, t3_look_at prof from target up = Ret (Ok t) /\ MFinite4 (t3_forward t) /\ MFinite4 (t3_forward (t3_inverse t)).
Proof.
  intros A prof from target up s H. exists (t3_new (cF from target up) (cM from target up)). split; [|split].
  - unfold t3_look_at. change (m4_inverse_look_at from target up) with (cM from target up). rewrite (cam_ok from target up s H). reflexivity.
  - apply (cam_F from target up s H).
  - exact (cM_fin _ _ _ _ H).
Qed.
Lemma C80_camera_frame_pf : forall (A : arith) (prof : profile) (from target : Point3 (num A)) (up : Vector3 (num A)) (s : R) t, LookOk from target up s -> t3_look_at prof from target up = Ret (Ok t) ->
  let u := unit_roundoff A in let back := t3_inverse t in
  let x := RV3 (t3_transform_vector back v3_x_axis) in let y := RV3 (t3_transform_vector back v3_y_axis) in let z := RV3 (t3_transform_vector back v3_z_axis) in
  PEq3 (t3_transform_point back p3_origin) from /\
  VFinite3 (t3_transform_vector back v3_x_axis) /\ VFinite3 (t3_transform_vector back v3_y_axis) /\ VFinite3 (t3_transform_vector back v3_z_axis) /\
  Rabs (Rdot3 x x - 1) <= 17 * u /\ Rabs (Rdot3 y y - 1) <= 45 * u / s /\ Rabs (Rdot3 z z - 1) <= 17 * u /\
  Rabs (Rdot3 x z) <= 17 * u / s /\ Rabs (Rdot3 y z) <= 5 * u /\ Rabs (Rdot3 x y) <= 5 * u /\ 99 / 100 <= Rdet3 x y z <= 10001 / 10000 /\
  (forall d, Rabs (vcoord3 z d - (coord3 (RP3 target) d - coord3 (RP3 from) d) / Rdist3 (RP3 target) (RP3 from)) <= 10 * u).
Proof.
  intros A prof from target up s t H E u back x y z. apply (look_inv _ _ _ _ s) in E; [|exact H]. subst t.
  destruct (cam_frame from target up s H) as ((_ & _ & Fd & Fr & Fn) & FR & K & _). pose proof (t_u8 (A:=A)) as (_ & _ & U). destruct (us from target up s H) as (U1 & U2 & U3 & U4 & EK & S0).
  destruct (fr_n _ _ _ _ _ _ _ _ _ _ _ U FR) as (ND & NR & NN). pose proof (lm_D _ _ _ _ _ _ _ _ _ _ _ U K FR) as D.
  destruct (back_axes from target up s H) as ((FX & EX) & (FY & EY) & (FZ & EZ)). cbn zeta in *. fold back in FX, FY, FZ, EX, EY, EZ.
  fold x in EX. fold y in EY. fold z in EZ. rewrite EX, EY, EZ.
  split. { pose proof (cam_from from target up s H) as Ff. intros d. apply Eqs_of_tx; [|destruct d; apply finite_NoNaN; [apply (Ff D3X) | apply (Ff D3Y) | apply (Ff D3Z)]].
    destruct d; apply origin_tx; first [apply (Fr D3X) | apply (Fr D3Y) | apply (Fr D3Z) | apply (Fn D3X) | apply (Fn D3Y) | apply (Fn D3Z) | apply (Fd D3X) | apply (Fd D3Y) | apply (Fd D3Z) | apply (Ff D3X) | apply (Ff D3Y) | apply (Ff D3Z)]. }
  split; [exact FX|]. split; [exact FY|]. split; [exact FZ|]. destruct FR as (RR & DD & DR & _).
  split; [exact RR|]. split. { eapply Rle_trans; [exact NN|]. rewrite EK. replace (45 * u / s) with (45 * (u / s)) by (unfold Rdiv; ring). assert (17 * (u / s) * (17 * (u / s)) <= 17 * (u / s) * (17 / 1024)) by (apply Rmult_le_compat_l; unfold u; lra). unfold u in *. lra. }
  split; [exact DD|]. split; [eapply Rle_trans; [|exact DR]; right; f_equal; unfold Rdot3; ring|]. split; [exact ND|]. split; [eapply Rle_trans; [|exact NR]; right; f_equal; unfold Rdot3; ring|].
  split. { replace (Rdet3 _ _ _) with (LD (v3x (RV3 (cr from target up))) (v3y (RV3 (cr from target up))) (v3z (RV3 (cr from target up))) (v3x (RV3 (cn from target up))) (v3y (RV3 (cn from target up))) (v3z (RV3 (cn from target up))) (v3x (RV3 (cd from target))) (v3y (RV3 (cd from target))) (v3z (RV3 (cd from target)))); [exact D | unfold LD, Rdet3; ring]. }
  intros d. pose proof (dir_err from target up s H d) as Q. destruct d; exact Q.
Qed.
Lemma C80_eye_to_origin_pf : forall (A : arith) (prof : profile) (from target : Point3 (num A)) (up : Vector3 (num A)) (s : R) t, LookOk from target up s -> t3_look_at prof from target up = Ret (Ok t) ->
  forall d, Finite (coord3 (t3_transform_point t from) d) /\
  Rabs (real_of (coord3 (t3_transform_point t from) d)) <= 424 * unit_roundoff A * Rsum3 (toV3 (RP3 from)) + 24 * min_subnormal A.
Proof.
  intros A prof from target up s t H E d. apply (look_inv _ _ _ _ s) in E; [|exact H]. subst t. pose proof (cam_from from target up s H) as Ff.
  assert (FN : Finite (coord3 (t3_transform_point (t3_new (cF from target up) (cM from target up)) from) d)) by exact (eye_fin from target up s H d). split; [exact FN|].
  pose proof (cam_pt from target up s H from d Ff FN) as Q. replace (vcoord3 (cN from target up (pv from (RP3 from))) d) with 0 in Q by (destruct d; unfold cN, pv; cbn [vcoord3 v3x v3y v3z]; ring). rewrite Rminus_0_r in Q. eapply Rle_trans; [exact Q|]. lra.
Qed.
Lemma C80_target_on_axis_pf : forall (A : arith) (prof : profile) (from target : Point3 (num A)) (up : Vector3 (num A)) (s : R) t, LookOk from target up s -> t3_look_at prof from target up = Ret (Ok t) ->
  forall d, Finite (coord3 (t3_transform_point t target) d) ->
  Rabs (real_of (coord3 (t3_transform_point t target) d) - match d with D3Z => Rdist3 (RP3 target) (RP3 from) | _ => 0 end)
    <= 222 * unit_roundoff A * (Rsum3 (toV3 (RP3 target)) + Rsum3 (toV3 (RP3 from))) + 24 * min_subnormal A.
Proof.
  intros A prof from target up s t H E d FN. apply (look_inv _ _ _ _ s) in E; [|exact H]. subst t. pose proof (cam_target from target up s H) as Ft.
  pose proof (cam_pt from target up s H target d Ft FN) as Q. pose proof (target_exact from target up s H d) as X. destruct (w_norm from target up s H) as (_ & _ & _ & SW & _). pose proof (t_u8 (A:=A)) as (_ & _ & U).
  rewrite norm_dist in X. match goal with |- Rabs (?a - ?b) <= _ => replace (a - b) with ((a - vcoord3 (cN from target up (pv from (RP3 target))) d) + (vcoord3 (cN from target up (pv from (RP3 target))) d - b)) by ring end.
  eapply Rle_trans; [apply Rabs_triang|]. eapply Rle_trans; [apply Rplus_le_compat; [exact Q | exact X]|].
  match type of SW with ?a <= ?b => assert (10 * unit_roundoff A * a <= 10 * unit_roundoff A * b) by (apply Rmult_le_compat_l; lra) end. lra.
Qed.
Lemma C80_lengths_kept_pf : forall (A : arith) (prof : profile) (from target : Point3 (num A)) (up : Vector3 (num A)) (s : R) t (v : Vector3 (num A)), LookOk from target up s -> t3_look_at prof from target up = Ret (Ok t) ->
  VFinite3 (t3_transform_vector t v) ->
  Rabs (Rnorm3 (RV3 (t3_transform_vector t v)) - Rnorm3 (RV3 v)) <= 360 * unit_roundoff A / s * Rnorm3 (RV3 v) + 6 * min_subnormal A.
Proof.
  intros A prof from target up s t v H E FN. apply (look_inv _ _ _ _ s) in E; [|exact H]. subst t. set (w := t3_transform_vector _ v) in *.
  pose proof (cN_norm from target up s H (RV3 v)) as NN. pose proof (t_u8 (A:=A)) as (_ & T0 & U). destruct (us from target up s H) as (U1 & U2 & U3 & U4 & EK & S0).
  pose proof (fun d => cam_vec from target up s H v d (FN d)) as V. pose proof (sum_norm3 (RV3 v)) as SN. destruct (Rnorm3_sq' (RV3 v)) as [_ L0]. set (L := Rnorm3 (RV3 v)) in *.
  destruct (Rnorm3_sq' (RV3 w)) as [W1 W2]. destruct (Rnorm3_sq' (cN from target up (RV3 v))) as [C1 C2]. 
  assert (UL : 0 <= unit_roundoff A * L) by (apply Rmult_le_pos; lra).
  set (e := 90 * unit_roundoff A * Rsum3 (RV3 v) + 3 * min_subnormal A) in *. assert (E0 : 0 <= e). { eapply Rle_trans; [apply Rabs_pos | exact (V D3X)]. }
  assert (EB : e <= 1575 / 10 * (unit_roundoff A * L) + 3 * min_subnormal A). { unfold e. assert (90 * unit_roundoff A * Rsum3 (RV3 v) <= 90 * unit_roundoff A * (7 / 4 * L)) by (apply Rmult_le_compat_l; lra). lra. }
  assert (D : Rabs (Rnorm3 (RV3 w) - Rnorm3 (cN from target up (RV3 v))) <= 7 / 4 * e).
  { eapply rev_tri; [exact W2 | exact C2 | lra | exact W1 | exact C1 |]. apply sumsq3; [exact E0 | exact (V D3X) | exact (V D3Y) | exact (V D3Z)]. }
  replace (360 * unit_roundoff A / s) with (360 * (unit_roundoff A / s)) by (unfold Rdiv; ring).
  replace (Rnorm3 (RV3 w) - L) with ((Rnorm3 (RV3 w) - Rnorm3 (cN from target up (RV3 v))) - (L - Rnorm3 (cN from target up (RV3 v)))) by ring. unfold Rminus at 1. eapply Rle_trans; [apply Rabs_triang|]. rewrite Rabs_Ropp.
  assert (unit_roundoff A * L <= 1001 / 1000 * (unit_roundoff A / s) * L) by (apply Rmult_le_compat_r; lra). assert (0 <= unit_roundoff A / s * L) by (apply Rmult_le_pos; lra). lra.
Qed.
Lemma C80_up_is_up_pf : forall (A : arith) (prof : profile) (from target : Point3 (num A)) (up : Vector3 (num A)) (s : R) t, LookOk from target up s -> t3_look_at prof from target up = Ret (Ok t) ->
  VFinite3 (t3_transform_vector t up) ->
  Rabs (v3x (RV3 (t3_transform_vector t up))) <= 220 * unit_roundoff A / s * Rnorm3 (RV3 up) /\ 3 / 4 * s * Rnorm3 (RV3 up) <= v3y (RV3 (t3_transform_vector t up)).
Proof.
  intros A prof from target up s t H E FN. apply (look_inv _ _ _ _ s) in E; [|exact H]. subst t. set (w := t3_transform_vector _ up) in *.
  destruct (up_exact from target up s H) as [X Y]. pose proof (t_u8 (A:=A)) as (_ & T0 & U). destruct (us from target up s H) as (U1 & U2 & U3 & U4 & EK & S0).
  pose proof (fun d => cam_vec from target up s H up d (FN d)) as V. pose proof (sum_norm3 (RV3 up)) as SN. destruct (Rnorm3_sq' (RV3 up)) as [_ L0]. assert (TL : min_subnormal A <= unit_roundoff A / 1000000 * Rnorm3 (RV3 up)) by (apply t_small_len; apply H).
  pose proof (V D3X) as VX. pose proof (V D3Y) as VY. cbn [vcoord3] in VX, VY. change (real_of (v3x (m4_mul_vector (cF from target up) up))) with (v3x (RV3 w)) in VX. change (real_of (v3y (m4_mul_vector (cF from target up) up))) with (v3y (RV3 w)) in VY.
  set (L := Rnorm3 (RV3 up)) in *. assert (UL : 0 <= unit_roundoff A * L) by (apply Rmult_le_pos; lra).
  assert (90 * unit_roundoff A * Rsum3 (RV3 up) <= 90 * unit_roundoff A * (7 / 4 * L)) by (apply Rmult_le_compat_l; lra).
  replace (220 * unit_roundoff A / s) with (220 * (unit_roundoff A / s)) by (unfold Rdiv; ring).
  assert (unit_roundoff A * L <= 1001 / 1000 * (unit_roundoff A / s) * L) by (apply Rmult_le_compat_r; lra). assert (unit_roundoff A * L <= s / 1024 * L) by (apply Rmult_le_compat_r; lra). assert (0 <= unit_roundoff A / s * L) by (apply Rmult_le_pos; lra). assert (0 <= s * L) by (apply Rmult_le_pos; lra).
  split; [|apply Rabs_le_inv in VY; lra]. replace (v3x (RV3 w)) with ((v3x (RV3 w) - v3x (cN from target up (RV3 up))) + v3x (cN from target up (RV3 up))) by ring. eapply Rle_trans; [apply Rabs_triang|]. lra.
Qed.
Lemma C80_coordinates_pf : forall (A : arith) (prof : profile) (from target : Point3 (num A)) (up : Vector3 (num A)) (s : R) t, LookOk from target up s -> t3_look_at prof from target up = Ret (Ok t) ->
  let u := unit_roundoff A in let back := t3_inverse t in
  let x := RV3 (t3_transform_vector back v3_x_axis) in let y := RV3 (t3_transform_vector back v3_y_axis) in let z := RV3 (t3_transform_vector back v3_z_axis) in
  (forall v d, let w := RV3 (t3_transform_vector t v) in VFinite3 (t3_transform_vector t v) ->
    Rabs (vcoord3 x d * v3x w + vcoord3 y d * v3y w + vcoord3 z d * v3z w - vcoord3 (RV3 v) d) <= 271 * u * Rsum3 (RV3 v) + 10 * min_subnormal A) /\
  (forall p d, let q := RP3 (t3_transform_point t p) in Finite3 p -> Finite3 (t3_transform_point t p) ->
    Rabs (coord3 (RP3 from) d + vcoord3 x d * p3x q + vcoord3 y d * p3y q + vcoord3 z d * p3z q - coord3 (RP3 p) d)
      <= 640 * u * (Rsum3 (toV3 (RP3 p)) + Rsum3 (toV3 (RP3 from))) + 73 * min_subnormal A).
Proof.
  intros A prof from target up s t H E u back x y z. apply (look_inv _ _ _ _ s) in E; [|exact H]. subst t.
  destruct (back_axes from target up s H) as ((_ & EX) & (_ & EY) & (_ & EZ)). cbn zeta in EX, EY, EZ. fold back x in EX. fold back y in EY. fold back z in EZ. rewrite EX, EY, EZ. clearbody x y z. clear x y z EX EY EZ.
  destruct (cam_frame from target up s H) as (_ & FR & K & _). pose proof (t_u8 (A:=A)) as (_ & T0 & U). fold u in U.
  destruct (fr_ent _ _ _ _ _ _ _ _ _ _ _ U K FR) as ((A1 & A2 & A3) & (B1 & B2 & B3) & (C1 & C2 & C3)).
  assert (G : forall v0 (w : Vector3 R) e d, (forall k, Rabs (vcoord3 w k - vcoord3 (cN from target up v0) k) <= e) ->
    Rabs (vcoord3 (RV3 (cr from target up)) d * v3x w + vcoord3 (RV3 (cn from target up)) d * v3y w + vcoord3 (RV3 (cd from target)) d * v3z w - vcoord3 v0 d) <= 3003 / 1000 * e).
  { intros v0 w e d W. destruct (cN_coord from target up s H v0) as (Q1 & Q2 & Q3). cbv zeta in Q1, Q2, Q3.
    assert (GG : forall a b c q, Rabs a <= 1001 / 1000 -> Rabs b <= 1001 / 1000 -> Rabs c <= 1001 / 1000 -> a * v3x (cN from target up v0) + b * v3y (cN from target up v0) + c * v3z (cN from target up v0) = q -> Rabs (a * v3x w + b * v3y w + c * v3z w - q) <= 3003 / 1000 * e).
    { intros a b c q Ha Hb Hc <-. match goal with |- Rabs ?z <= _ => replace z with (a * (v3x w - v3x (cN from target up v0)) + b * (v3y w - v3y (cN from target up v0)) + c * (v3z w - v3z (cN from target up v0))) by ring end.
      pose proof (W D3X) as W1. pose proof (W D3Y) as W2. pose proof (W D3Z) as W3. cbn [vcoord3] in W1, W2, W3. eapply Rle_trans; [apply Rabs_triang|]. eapply Rle_trans; [apply Rplus_le_compat_r, Rabs_triang|]. rewrite !Rabs_mult.
      assert (M : forall p q, Rabs p <= 1001 / 1000 -> Rabs q <= e -> Rabs p * Rabs q <= 1001 / 1000 * e) by (intros; apply Rmult_le_compat; try apply Rabs_pos; assumption).
      pose proof (M _ _ Ha W1). pose proof (M _ _ Hb W2). pose proof (M _ _ Hc W3). lra. }
    destruct d; cbn [vcoord3]; apply GG; assumption. }
  split.
  - intros v d w FN. assert (S0 : 0 <= u * Rsum3 (RV3 v)) by (apply Rmult_le_pos; [lra | unfold Rsum3; pose proof (Rabs_pos (v3x (RV3 v))); pose proof (Rabs_pos (v3y (RV3 v))); pose proof (Rabs_pos (v3z (RV3 v))); lra]).
    eapply Rle_trans; [apply (G (RV3 v) w (90 * u * Rsum3 (RV3 v) + 3 * min_subnormal A) d)|lra]. intros k. pose proof (cam_vec from target up s H v k (FN k)) as V. destruct k; exact V.
  - intros p d q Fp FN. assert (S0 : forall a : Vector3 R, 0 <= Rsum3 a) by (intros a; unfold Rsum3; pose proof (Rabs_pos (v3x a)); pose proof (Rabs_pos (v3y a)); pose proof (Rabs_pos (v3z a)); lra).
    set (S := Rsum3 (toV3 (RP3 p)) + Rsum3 (toV3 (RP3 from))). assert (S1 : 0 <= u * S) by (apply Rmult_le_pos; [lra | unfold S; pose proof (S0 (toV3 (RP3 p))); pose proof (S0 (toV3 (RP3 from))); lra]).
    assert (W : forall k, Rabs (vcoord3 (toV3 q) k - vcoord3 (cN from target up (pv from (RP3 p))) k) <= 212 * u * S + 24 * min_subnormal A) by (intros k; pose proof (cam_pt from target up s H p k Fp (FN k)) as V; destruct k; exact V).
    pose proof (G (pv from (RP3 p)) (toV3 q) _ d W) as Q. cbn [toV3 v3x v3y v3z] in Q.
    match type of Q with Rabs ?a <= _ => match goal with |- Rabs ?b <= _ => replace b with a by (destruct d; unfold pv; cbn [vcoord3 coord3 v3x v3y v3z]; ring) end end. eapply Rle_trans; [exact Q|]. lra.
Qed.
Lemma t_u64 : min_subnormal A64 <= unit_roundoff A64 * / 1000000000000 /\ 0 < unit_roundoff A64 <= / 1000000.
Proof.
  unfold min_subnormal, unit_roundoff. cbn [A64]. split.
  - change (bpow radix2 (SpecFloat.emin (prec F64) (emax F64)) <= bpow radix2 (- prec F64) * / 1000000000000). apply Rle_trans with (bpow radix2 (- prec F64) * bpow radix2 (-40)); [rewrite <- bpow_plus; apply bpow_le; vm_compute; discriminate|]. apply Rmult_le_compat_l; [apply bpow_ge_0|]. cbn -[IZR]. apply Rinv_le_contravar; lra.
  - split; [apply bpow_gt_0|]. cbn -[IZR]. apply Rinv_le_contravar; lra.
Qed.
Lemma len_ex64 (v : Vector3 (num A64)) d : Finite (v3_dot v v) -> sle (d64 1 (-2)) (v3_dot v v) = true -> sle (d64 1 (-2)) (vcoord3 v d) = true -> Finite (vcoord3 v d) -> LenOk v /\ 1 / 4 <= Rnorm3 (RV3 v).
Proof.
  intros F L1 L2 F2. assert (V : real_of (d64 1 (-2) : num A64) = / 4) by (cbn -[Rinv IZR]; unfold Defs.F2R; cbn; lra). assert (FV : Finite (d64 1 (-2) : num A64)) by (vm_compute; reflexivity).
  assert (D : / 4 <= real_of (v3_dot v v)) by (rewrite <- V; apply Le_real; assumption). assert (C : / 4 <= real_of (vcoord3 v d)) by (rewrite <- V; apply Le_real; assumption).
  assert (N : / 4 <= Rnorm3 (RV3 v)). { apply Rle_trans with (Rabs (vcoord3 (RV3 v) d)); [|apply comp_le_norm3]. eapply Rle_trans; [|apply Rle_abs]. destruct d; exact C. }
  split; [|lra]. split; [exact F|]. split; [|lra]. destruct t_u64 as [T U]. assert (unit_roundoff A64 * / 4 <= unit_roundoff A64 * real_of (v3_dot v v)) by (apply Rmult_le_compat_l; lra). lra.
Qed.
