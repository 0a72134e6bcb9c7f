(** Proof device for C80: accuracy of the forward matrix of look_at. *)
From Coq Require Import Bool NArith ZArith Reals List Lra Lia.
From Flocq Require Import Core.Zaux Core.Raux Core.Defs Core.Generic_fmt Core.FLT IEEE754.BinarySingleNaN.
From Verif Require Import Scalar Types Vector2 Vector3 Point2 Point3 Ray BoundingBox2 BoundingBox3 Transform2 Transform3 Float
  XReal OrdLaws Arith SpecOrder SpecStruct SpecFloat SpecReal SpecErr SpecRot SpecInv SpecTrans SpecLook Adj4 ExactBase ExactMat FloatX XArith FloatLaws FloatTrans ErrBase FloatErr FloatInv
  FloatTri FloatRot FloatInvAcc LookReal LookFrame FloatBig ExVals.
Import ListNotations.
Local Open Scope R_scope.
Lemma vrow (u g F0 F1 F2 N0 N1 N2 v0 v1 v2 : R) : 0 <= u <= / 16777216 -> 0 <= g <= 4001 / 1000 * u -> Rabs (F0 - N0) <= 86 * u -> Rabs (F1 - N1) <= 86 * u -> Rabs (F2 - N2) <= 86 * u ->
  Rabs N0 <= 1012 / 1000 -> Rabs N1 <= 1012 / 1000 -> Rabs N2 <= 1012 / 1000 ->
  Rabs ((F0 * v0 + F1 * v1 + F2 * v2) - (N0 * v0 + N1 * v1 + N2 * v2)) <= 86 * u * (Rabs v0 + Rabs v1 + Rabs v2) /\
  g * (Rabs F0 * Rabs v0 + Rabs F1 * Rabs v1 + Rabs F2 * Rabs v2) <= 102 / 100 * g * (Rabs v0 + Rabs v1 + Rabs v2).
Proof.
  intros U G E0 E1 E2 B0 B1 B2. split.
  - replace ((F0 * v0 + F1 * v1 + F2 * v2) - (N0 * v0 + N1 * v1 + N2 * v2)) with ((F0 - N0) * v0 + (F1 - N1) * v1 + (F2 - N2) * v2) by ring. now apply sum_err.
  - assert (K : forall F N v, Rabs (F - N) <= 86 * u -> Rabs N <= 1012 / 1000 -> Rabs F * Rabs v <= 102 / 100 * Rabs v).
    { intros F N v E B. apply Rmult_le_compat_r; [apply Rabs_pos|]. replace F with ((F - N) + N) by ring. eapply Rle_trans; [apply Rabs_triang | lra]. }
    rewrite (Rmult_comm (102 / 100)), Rmult_assoc. apply Rmult_le_compat_l; [lra|]. pose proof (K _ _ v0 E0 B0). pose proof (K _ _ v1 E1 B1). pose proof (K _ _ v2 E2 B2). lra.
Qed.
Lemma pt_div (u t x w q S d e f : R) : 0 <= u <= / 16777216 -> 0 <= t -> 0 <= S -> Rabs (x - q) <= 905 / 10 * u * S + 23 * t -> Rabs q <= 1012 / 1000 * S -> Rabs (w - 1) <= 118 * u -> Rabs d <= u -> Rabs e <= t / 2 -> f = x / w * (1 + d) + e ->
  Rabs (f - q) <= 212 * u * S + 24 * t.
Proof.
  intros U T S0 X Q W D E ->. apply Rabs_le_inv in W. assert (W0 : 0 < w) by lra.
  assert (US : 0 <= u * S) by (apply Rmult_le_pos; lra).
  assert (X1 : Rabs (x / w - q) <= 2105 / 10 * u * S + 234 / 10 * t).
  { replace (x / w - q) with (((x - q) + q * (1 - w)) * / w) by (field; lra). rewrite Rabs_mult, Rabs_inv, (Rabs_pos_eq w) by lra.
    assert (Rabs (q * (1 - w)) <= 1012 / 1000 * S * (118 * u)). { rewrite Rabs_mult. apply Rmult_le_compat; try apply Rabs_pos; [assumption|]. apply Rabs_le. lra. }
    assert (B : Rabs (x - q + q * (1 - w)) <= 2100 / 10 * (u * S) + 23 * t) by (eapply Rle_trans; [apply Rabs_triang | lra]).
    apply Rmult_le_reg_r with w; [assumption|]. rewrite Rmult_assoc, Rinv_l, Rmult_1_r by lra. eapply Rle_trans; [exact B|].
    apply Rle_trans with ((2105 / 10 * u * S + 234 / 10 * t) * (1 - 118 * u)); [|apply Rmult_le_compat_l; [lra | lra]].
    assert ((2105 / 10 * u * S + 234 / 10 * t) * (118 * u) <= (2105 / 10 * u * S + 234 / 10 * t) * (/ 100000)) by (apply Rmult_le_compat_l; lra). lra. }
  replace (x / w * (1 + d) + e - q) with ((x / w - q) * (1 + d) + (q * d + e)) by ring. eapply Rle_trans; [apply Rabs_triang|]. eapply Rle_trans; [apply Rplus_le_compat_l; apply Rabs_triang|].
  assert (Rabs (q * d) <= 1012 / 1000 * S * u) by (rewrite Rabs_mult; apply Rmult_le_compat; try apply Rabs_pos; assumption).
  assert (Rabs (1 + d) <= 1 + u) by (eapply Rle_trans; [apply Rabs_triang|]; rewrite Rabs_R1; lra).
  assert (Rabs ((x / w - q) * (1 + d)) <= (2105 / 10 * u * S + 234 / 10 * t) * (1 + u)) by (rewrite Rabs_mult; apply Rmult_le_compat; try apply Rabs_pos; assumption).
  assert ((2105 / 10 * u * S + 234 / 10 * t) * u <= (2105 / 10 * u * S + 234 / 10 * t) * / 100000) by (apply Rmult_le_compat_l; lra). lra.
Qed.
Section Z.
Context {A : arith}.
Lemma Zr_tx (x : num A) : Zr x <-> tx x = Fin 0.
Proof. split; [intros [F V]; rewrite <- V; now apply Finite_real | apply Finite_intro]. Qed.
Lemma Zr_mul_r (x y : num A) : Finite x -> Zr y -> Zr (smul x y).
Proof. intros F Z. apply Zr_tx in Z. apply Zr_tx. rewrite tx_mul, Z, (Finite_real _ F). cbn [xmul]. rewrite Rmult_0_r. apply xr_0. Qed.
Lemma Zr_add (x y : num A) : Zr x -> Zr y -> Zr (sadd x y).
Proof. intros Z1 Z2. apply Zr_tx in Z1, Z2. apply Zr_tx. rewrite tx_add, Z1, Z2. cbn [xadd]. rewrite Rplus_0_r. apply xr_0. Qed.
Lemma Zr_sub (x y : num A) : Zr x -> Zr y -> Zr (ssub x y).
Proof. intros Z1 Z2. apply Zr_tx in Z1, Z2. apply Zr_tx. rewrite tx_sub, Z1, Z2. cbn [xsub xadd xneg]. rewrite Ropp_0, Rplus_0_r. apply xr_0. Qed.
Lemma Zr_div (x y : num A) : Zr x -> Finite y -> real_of y <> 0 -> Zr (sdiv x y).
Proof.
  intros Z F N. apply Zr_tx in Z. apply Zr_tx. pose proof (Finite_real _ F) as E. rewrite tx_div by (rewrite E; congruence). rewrite Z, E. cbn [xdiv]. rewrite Req_bool_false by assumption. unfold Rdiv. rewrite Rmult_0_l. apply xr_0.
Qed.
Lemma Bk_tri (a b c q : Z) (x y z : num A) : Bk a x -> Bk b y -> Bk c z -> (0 <= a)%Z -> (0 <= b)%Z -> (0 <= c)%Z -> (a + b + c <= q)%Z -> okexp A q -> Bk q (smul (smul x y) z).
Proof.
  intros HX HY HZ Ha Hb Hc L K. apply Bk_le with (a + b + c)%Z; [|assumption]. apply Bk_mul; [apply Bk_mul; [assumption | assumption | lia |] | assumption | lia |]; (eapply okexp_le; [exact K | lia]).
Qed.
Lemma Bk_six (q q' : Z) (x1 x2 x3 x4 x5 x6 : num A) : Bk q x1 -> Bk q x2 -> Bk q x3 -> Bk q x4 -> Bk q x5 -> Bk q x6 -> (0 <= q)%Z -> (q + 5 <= q')%Z -> okexp A q' ->
  Bk q' (ssub (ssub (ssub (sadd (sadd x1 x2) x3) x4) x5) x6).
Proof.
  intros H1 H2 H3 H4 H5 H6 Q L K. assert (P : forall i, (i <= q')%Z -> okexp A i) by (intros; eapply okexp_le; eassumption).
    assert (AD : forall j (x y : num A), Bk (q + j) x -> Bk q y -> (0 <= j <= 4)%Z -> Bk (q + (j + 1)) (sadd x y)) by (intros j x y X Y J; eapply Bk_le; [apply (Bk_add (q + j) q); [exact X | exact Y | lia | apply P; lia] | lia]).
  assert (SB : forall j (x y : num A), Bk (q + j) x -> Bk q y -> (0 <= j <= 4)%Z -> Bk (q + (j + 1)) (ssub x y)) by (intros j x y X Y J; eapply Bk_le; [apply (Bk_sub (q + j) q); [exact X | exact Y | lia | apply P; lia] | lia]).
  apply Bk_le with (q + (4 + 1))%Z; [|lia]. apply SB; [|assumption|lia]. apply (SB 3%Z); [|assumption|lia]. apply (SB 2%Z); [|assumption|lia]. apply (AD 1%Z); [|assumption|lia]. apply (AD 0%Z); [|assumption|lia]. replace (q + 0)%Z with q by lia. assumption.
Qed.
Lemma Zr_six (x1 x2 x3 x4 x5 x6 : num A) : Zr x1 -> Zr x2 -> Zr x3 -> Zr x4 -> Zr x5 -> Zr x6 -> Zr (ssub (ssub (ssub (sadd (sadd x1 x2) x3) x4) x5) x6).
Proof. intros. apply Zr_sub; [apply Zr_sub; [apply Zr_sub; [apply Zr_add; [apply Zr_add|]|]|]|]; assumption. Qed.
Lemma Bk_one q (x : num A) : Bk q x -> (0 <= q)%Z -> okexp A q -> Bk q (smul sone x) /\ Bk q (smul (sneg sone) x).
Proof. intros B Q K. split; (eapply Bk_le; [apply (Bk_mul 0 q); [try apply Bk_neg; apply Bk_1 | exact B | lia | exact K] | lia]). Qed.
End Z.
Lemma qe_bound (u t D e y : R) : 0 <= u <= / 16777216 -> 0 <= e -> 99 / 100 <= D -> quotient_error e (67 * u) t D y <= 10102 / 10000 * (e + 67 * u * Rabs y) + t.
Proof.
  intros U E HD. unfold quotient_error. apply Rplus_le_compat_r. rewrite (Rabs_pos_eq D) by lra. rewrite (Rmult_comm (Rabs y)).
  assert (0 <= e + 67 * u * Rabs y) by (apply Rplus_le_le_0_compat; [assumption | apply Rmult_le_pos; [lra | apply Rabs_pos]]).
  unfold Rdiv at 1. rewrite Rmult_comm. apply Rmult_le_compat_r; [assumption|]. apply Rmult_le_reg_r with (D - 67 * u); [lra|]. rewrite Rinv_l by lra. lra.
Qed.
Lemma pow8 (u : R) : 0 <= u <= / 16777216 -> 0 <= (1 + u) ^ 8 - 1 <= 80001 / 10000 * u.
Proof.
  intros U. split; [pose proof (pow_R1_Rle (1 + u) 8 ltac:(lra)); lra|].
  assert (A2 : (1 + u) ^ 2 <= 1 + 2000001 / 1000000 * u) by (cbn; nra).
  assert (A4 : (1 + u) ^ 4 <= 1 + 4000005 / 1000000 * u). { replace ((1 + u) ^ 4) with ((1 + u) ^ 2 * (1 + u) ^ 2) by ring. pose proof (pow_R1_Rle (1 + u) 2 ltac:(lra)). nra. }
  replace ((1 + u) ^ 8) with ((1 + u) ^ 4 * (1 + u) ^ 4) by ring. pose proof (pow_R1_Rle (1 + u) 4 ltac:(lra)). nra.
Qed.
Lemma det_big (u t G P E : R) : 0 <= u <= / 16777216 -> 0 <= t -> 2 <= G -> 64 * t * (G * G) <= u -> 0 <= P <= 6024 / 1000 -> E = ((1 + u) ^ 11 - 1) * P + t * (24 * G * (G + 1) + 4) -> E <= 67 * u.
Proof.
  intros U T HG B HP ->. assert (G11 : (1 + u) ^ 11 - 1 <= 110001 / 10000 * u).
  { assert (Q : forall n, (n <= 11)%nat -> (1 + u) ^ n <= 1 + (INR n * (1 + / 1000000)) * u). { induction n as [|n IH]; intros L. - cbn; lra.
      - specialize (IH ltac:(lia)). cbn [pow]. rewrite S_INR. pose proof (pos_INR n). assert (INR n <= 11) by (replace 11 with (INR 11) by (cbn; lra); apply le_INR; lia).
        assert ((1 + u) * (1 + u) ^ n <= (1 + u) * (1 + INR n * (1 + / 1000000) * u)) by (apply Rmult_le_compat_l; lra).
        assert (INR n * (1 + / 1000000) * u * u <= 12 * u * / 16777216). { replace (12 * u * / 16777216) with (12 * (u * / 16777216)) by ring. rewrite Rmult_assoc. apply Rmult_le_compat; try nra. }
        lra. }
    specialize (Q 11%nat (le_n _)). replace (INR 11) with 11 in Q by (cbn; lra). lra. }
  pose proof (pow_R1_Rle (1 + u) 11 ltac:(lra)).
  assert (((1 + u) ^ 11 - 1) * P <= 110001 / 10000 * u * (6024 / 1000)) by (apply Rmult_le_compat; lra).
  assert (24 * G * (G + 1) + 4 <= 37 * (G * G)) by nra. assert (t * (24 * G * (G + 1) + 4) <= t * (37 * (G * G))) by (apply Rmult_le_compat_l; lra). lra.
Qed.
Section Cam.
Context {A : arith} (from target : Point3 (num A)) (up : Vector3 (num A)) (s : R).
Notation u := (unit_roundoff A).
Notation t := (min_subnormal A).
Context (H : LookOk from target up s).
Definition cw := p3_sub target from. Definition ca := v3_normalize up. Definition cd := v3_normalize cw. Definition cc := v3_cross ca cd.
Definition cr := v3_normalize cc. Definition cn := v3_cross cd cr.
Definition cM : Matrix4x4 (num A) := m4_inverse_look_at from target up.
Definition cG : R := 2 + Rsum3 (toV3 (RP3 from)).
Lemma cam_frame : (VFinite3 cw /\ VFinite3 ca /\ VFinite3 cd /\ VFinite3 cr /\ VFinite3 cn) /\
  FrameOk u (17 * u / s) (v3x (RV3 cr)) (v3y (RV3 cr)) (v3z (RV3 cr)) (v3x (RV3 cn)) (v3y (RV3 cn)) (v3z (RV3 cn)) (v3x (RV3 cd)) (v3y (RV3 cd)) (v3z (RV3 cd)) /\
  17 * u / s <= 17 / 1024 /\ Rabs (rd (RV3 ca) (RV3 cr)) <= 17 * u / s /\ s - 8 * u * s <= rd (RV3 cr) (RV3 cc) /\ 0 < s <= 1001 / 1000 /\ Rabs (rd (RV3 ca) (RV3 ca) - 1) <= 17 * u.
Proof using H.
  destruct H as (Hw & Hu & Hc & Es & Hs & _). change (p3_sub target from) with cw in *. change (v3_normalize up) with ca in *. change (v3_normalize cw) with cd in *. change (v3_cross ca cd) with cc in *.
  destruct (unit_facts cw Hw) as (Fd & Nd & _). destruct (unit_facts up Hu) as (Fa & Na & _). change (v3_normalize cw) with cd in *. change (v3_normalize up) with ca in *.
  destruct (right_facts ca cd Fa Fd Na Nd Hc) as (Fr & Nr' & S0 & Pd & Pa & C). change (v3_cross ca cd) with cc in *. change (v3_normalize cc) with cr in *. rewrite <- Es in *.
  destruct (cross_facts cd cr Fd Fr Nd Nr') as (Fn & En). change (v3_cross cd cr) with cn in *. pose proof (t_u8 (A:=A)) as (_ & _ & U).
  assert (Fw : VFinite3 cw). { destruct Hw as (F & _). destruct (dot_finite_inv3 _ F) as (F1 & F2 & F3). intros []; assumption. }
  split; [tauto|]. split.
  { unfold FrameOk. pose proof (En D3X) as E1. pose proof (En D3Y) as E2. pose proof (En D3Z) as E3. cbn [vcoord3 rx v3x v3y v3z] in E1, E2, E3. unfold rd in *. tauto. }
  split; [|tauto]. apply Rmult_le_reg_r with s; [lra|]. unfold Rdiv. rewrite (Rmult_assoc (17 * u)), Rinv_l by lra. lra.
Qed.
Lemma cam_from : Finite3 from.
Proof using H.
  destruct cam_frame as ((Fw & _) & _). intros d. specialize (Fw d). destruct d; cbn [vcoord3 coord3 cw] in *; unfold p3_sub, v3_new in Fw; cbn [v3x v3y v3z] in Fw; destruct (err_sub _ _ Fw) as (_ & F & _); exact F.
Qed.
Lemma cam_real : RM4 cM = LM (v3x (RV3 cr)) (v3y (RV3 cr)) (v3z (RV3 cr)) (v3x (RV3 cn)) (v3y (RV3 cn)) (v3z (RV3 cn)) (v3x (RV3 cd)) (v3y (RV3 cd)) (v3z (RV3 cd)) (p3x (RP3 from)) (p3y (RP3 from)) (p3z (RP3 from)).
Proof using.
  unfold cM, m4_inverse_look_at, LM, RM4, m4_new. cbn [m4_0 m4_1 m4_2 m4_3 m4_4 m4_5 m4_6 m4_7 m4_8 m4_9 m4_10 m4_11 m4_12 m4_13 m4_14 m4_15].
  destruct (Zr_0 (A:=A)) as [_ ->]. destruct (real_of_1 (A:=A)) as [_ ->]. reflexivity.
Qed.
Lemma cam_G : 2 <= cG /\ 64 * t * (cG * cG) <= u /\ FS (p3x (RP3 from)) (p3y (RP3 from)) (p3z (RP3 from)) = cG - 2.
Proof using H.
  destruct H as (_ & _ & _ & _ & _ & B). unfold cG, Rsum3, toV3, FS in *. cbn [v3x v3y v3z p3x p3y p3z] in *. pose proof (Rabs_pos (p3x (RP3 from))). pose proof (Rabs_pos (p3y (RP3 from))). pose proof (Rabs_pos (p3z (RP3 from))).
  split; [lra|]. split; [|lra]. eapply Rle_trans; [|exact B]. right. ring.
Qed.
Lemma cam_ents : Forall (fun x => Rabs (real_of x) <= cG) (m4_comps cM).
Proof using H.
  destruct cam_frame as (_ & F & K & _). destruct cam_G as (G2 & _ & GS). pose proof (t_u8 (A:=A)) as (_ & _ & U).
  destruct (fr_ent _ _ _ _ _ _ _ _ _ _ _ U K F) as ((A1 & A2 & A3) & (B1 & B2 & B3) & (C1 & C2 & C3)).
  pose proof (Rabs_pos (p3x (RP3 from))). pose proof (Rabs_pos (p3y (RP3 from))). pose proof (Rabs_pos (p3z (RP3 from))). unfold FS in GS.
  unfold cM, m4_inverse_look_at, m4_comps, m4_new. cbn [m4_0 m4_1 m4_2 m4_3 m4_4 m4_5 m4_6 m4_7 m4_8 m4_9 m4_10 m4_11 m4_12 m4_13 m4_14 m4_15].
  destruct (Zr_0 (A:=A)) as [_ Z0]. destruct (real_of_1 (A:=A)) as [_ Z1].
  change (p3_sub target from) with cw. change (v3_normalize up) with ca. change (v3_normalize cw) with cd. change (v3_cross ca cd) with cc. change (v3_normalize cc) with cr. change (v3_cross cd cr) with cn.
  cbn [RV3 RP3 v3x v3y v3z p3x p3y p3z] in *.
  repeat (constructor; [first [rewrite Z0, Rabs_R0; lra | rewrite Z1, Rabs_R1; lra | lra]|]). constructor.
Qed.
Lemma cam_bk : exists m, (1 <= m)%Z /\ okexp A (m + 40) /\ cG <= bpow radix2 m /\
  (Bk 1 (m4_0 cM) /\ Bk 1 (m4_1 cM) /\ Bk 1 (m4_2 cM) /\ Bk m (m4_3 cM)) /\ (Bk 1 (m4_4 cM) /\ Bk 1 (m4_5 cM) /\ Bk 1 (m4_6 cM) /\ Bk m (m4_7 cM)) /\
  (Bk 1 (m4_8 cM) /\ Bk 1 (m4_9 cM) /\ Bk 1 (m4_10 cM) /\ Bk m (m4_11 cM)) /\ (m4_12 cM = szero /\ m4_13 cM = szero /\ m4_14 cM = szero /\ m4_15 cM = sone).
Proof using H.
  destruct cam_G as (G2 & GB & GS). destruct (pow_above cG ltac:(lra)) as (m & M0 & M1 & M2). assert (M3 : (1 <= m)%Z) by (apply (le_bpow radix2); replace (bpow radix2 1) with 2 by (cbn; lra); lra). exists m. split; [assumption|]. split; [apply (okexp_sq cG); [exact GB | lra | exact M2 | lia | assumption]|]. split; [assumption|].
  destruct cam_frame as ((_ & _ & Fd & Fr & Fn) & F & K & _). pose proof (t_u8 (A:=A)) as (_ & _ & U). pose proof cam_from as Ff.
  destruct (fr_ent _ _ _ _ _ _ _ _ _ _ _ U K F) as ((A1 & A2 & A3) & (B1 & B2 & B3) & (C1 & C2 & C3)).
  pose proof (Rabs_pos (p3x (RP3 from))). pose proof (Rabs_pos (p3y (RP3 from))). pose proof (Rabs_pos (p3z (RP3 from))). unfold FS in GS.
  assert (L1 : forall x : num A, Finite x -> Rabs (real_of x) <= 1001 / 1000 -> Bk 1 x). { intros x Fx B. split; [assumption|]. replace (bpow radix2 1) with 2 by (cbn; lra). lra. }
  assert (Lm : forall x : num A, Finite x -> Rabs (real_of x) <= cG -> Bk m x). { intros x Fx B. split; [assumption | lra]. }
  cbn [RV3 RP3 v3x v3y v3z p3x p3y p3z] in *.
  unfold cM, m4_inverse_look_at, m4_new. cbn [m4_0 m4_1 m4_2 m4_3 m4_4 m4_5 m4_6 m4_7 m4_8 m4_9 m4_10 m4_11 m4_12 m4_13 m4_14 m4_15].
  change (p3_sub target from) with cw. change (v3_normalize up) with ca. change (v3_normalize cw) with cd. change (v3_cross ca cd) with cc. change (v3_normalize cc) with cr. change (v3_cross cd cr) with cn.
  conjs; first [reflexivity | apply L1; [first [exact (Fr D3X) | exact (Fr D3Y) | exact (Fr D3Z) | exact (Fn D3X) | exact (Fn D3Y) | exact (Fn D3Z) | exact (Fd D3X) | exact (Fd D3Y) | exact (Fd D3Z)] | assumption] |
    apply Lm; [first [exact (Ff D3X) | exact (Ff D3Y) | exact (Ff D3Z)] | lra]].
Qed.

Lemma cam_fin : exists m, (1 <= m)%Z /\ okexp A (m + 40) /\ cG <= bpow radix2 m /\ Forall (Bk (m + 7)) (m4_comps (adj4 cM)) /\ (Zr (m4_12 (adj4 cM)) /\ Zr (m4_13 (adj4 cM)) /\ Zr (m4_14 (adj4 cM))) /\ Finite (det4 cM).
Proof using H.
  destruct cam_bk as (m & M0 & K & GM & (B0 & B1 & B2 & B3) & (B4 & B5 & B6 & B7) & (B8 & B9 & B10 & B11) & (E12 & E13 & E14 & E15)). exists m. split; [assumption|]. split; [assumption|]. split; [assumption|].
  pose proof (Bk_0 (A:=A)) as Z0. pose proof (Bk_1 (A:=A)) as Z1. pose proof (Zr_0 (A:=A)) as ZZ.
  assert (P : forall i, (i <= m + 40)%Z -> okexp A i) by (intros; eapply okexp_le; eassumption).
  assert (T : forall (a b c : Z) (x y z : num A), Bk a x -> Bk b y -> Bk c z -> (0 <= a)%Z -> (0 <= b)%Z -> (0 <= c)%Z -> (a + b + c <= m + 2)%Z -> Bk (m + 2) (smul (smul x y) z)) by (intros; eapply Bk_tri; try eassumption; apply P; lia).
  assert (T3 : forall (a b c : Z) (x y z : num A), Bk a x -> Bk b y -> Bk c z -> (0 <= a)%Z -> (0 <= b)%Z -> (0 <= c)%Z -> (a + b + c <= 3)%Z -> Bk 3 (smul (smul x y) z)) by (intros; eapply Bk_tri; try eassumption; apply P; lia).
  assert (CF : forall (x1 x2 x3 x4 x5 x6 : num A), Bk (m + 2) x1 -> Bk (m + 2) x2 -> Bk (m + 2) x3 -> Bk (m + 2) x4 -> Bk (m + 2) x5 -> Bk (m + 2) x6 ->
    Bk (m + 7) (smul sone (ssub (ssub (ssub (sadd (sadd x1 x2) x3) x4) x5) x6)) /\ Bk (m + 7) (smul (sneg sone) (ssub (ssub (ssub (sadd (sadd x1 x2) x3) x4) x5) x6))).
  { intros. apply Bk_one; [|lia|apply P; lia]. eapply Bk_six with (q := (m + 2)%Z); try assumption; try lia. apply P; lia. }
  assert (CF3 : forall (x1 x2 x3 x4 x5 x6 : num A), Bk 3 x1 -> Bk 3 x2 -> Bk 3 x3 -> Bk 3 x4 -> Bk 3 x5 -> Bk 3 x6 ->
    Bk 8 (smul sone (ssub (ssub (ssub (sadd (sadd x1 x2) x3) x4) x5) x6)) /\ Bk 8 (smul (sneg sone) (ssub (ssub (ssub (sadd (sadd x1 x2) x3) x4) x5) x6))).
  { intros. apply Bk_one; [|lia|apply P; lia]. eapply Bk_six with (q := 3%Z); try assumption; try lia. apply P; lia. }
  assert (ZT : forall x y : num A, Bk 1 x -> Bk 1 y -> Zr (smul (smul x y) szero)). { intros x y X Y. apply Zr_mul_r; [|assumption]. refine (proj1 (Bk_mul 1 1 _ _ X Y _ _)); [lia | apply P; lia]. }
  assert (ZC : forall (x1 x2 x3 x4 x5 x6 : num A), Zr x1 -> Zr x2 -> Zr x3 -> Zr x4 -> Zr x5 -> Zr x6 ->
    Zr (smul sone (ssub (ssub (ssub (sadd (sadd x1 x2) x3) x4) x5) x6)) /\ Zr (smul (sneg sone) (ssub (ssub (ssub (sadd (sadd x1 x2) x3) x4) x5) x6))).
  { intros. split; apply Zr_mul_r; try (apply Zr_six; assumption); [exact (proj1 Z1) | exact (proj1 (Bk_neg _ _ Z1))]. }
  unfold det4, adj4. cbn [m4_0 m4_1 m4_2 m4_3 m4_4 m4_5 m4_6 m4_7 m4_8 m4_9 m4_10 m4_11 m4_12 m4_13 m4_14 m4_15]. rewrite E12, E13, E14, E15.
  set (M := cM) in *. clearbody M. clear E12 E13 E14 E15. 
  assert (AJ : forall q, (m + 7 <= q)%Z -> forall x : num A, Bk (m + 7) x -> Bk q x) by (intros q L x B; eapply Bk_le; eassumption).
  Ltac adjt CF T CF3 T3 := first [apply CF; (eapply T; [eassumption | eassumption | eassumption | lia | lia | lia | lia]) | eapply Bk_le with (i := 8%Z); [apply CF3; (eapply T3; [eassumption | eassumption | eassumption | lia | lia | lia | lia]) | lia]].
  split; [unfold m4_comps; cbn [m4_0 m4_1 m4_2 m4_3 m4_4 m4_5 m4_6 m4_7 m4_8 m4_9 m4_10 m4_11 m4_12 m4_13 m4_14 m4_15]; repeat (constructor; [adjt CF T CF3 T3|]); constructor|].
  split; [conjs; apply ZC; apply ZT; assumption|].
  assert (ML : forall x y : num A, Bk 1 x -> Bk (m + 7) y -> Bk (m + 8) (smul x y)) by (intros x y X Y; eapply Bk_le; [apply (Bk_mul 1 (m + 7)); [exact X | exact Y | lia | apply P; lia] | lia]).
  assert (ML3 : forall x y : num A, Bk m x -> Bk 8 y -> Bk (m + 8) (smul x y)) by (intros x y X Y; eapply Bk_le; [apply (Bk_mul m 8); [exact X | exact Y | lia | apply P; lia] | lia]).
  assert (AD : forall j (x y : num A), Bk (m + 8 + j) x -> Bk (m + 8) y -> (0 <= j <= 4)%Z -> Bk (m + 8 + (j + 1)) (sadd x y)) by (intros j x y X Y J; eapply Bk_le; [apply (Bk_add (m + 8 + j) (m + 8)); [exact X | exact Y | lia | apply P; lia] | lia]).
  refine (proj1 (AD 2%Z _ _ (AD 1%Z _ _ (AD 0%Z _ _ _ _ _) _ _) _ _)); try lia; try (apply ML; [assumption | adjt CF T CF3 T3]).
  - replace (m + 8 + 0)%Z with (m + 8)%Z by lia. apply ML; [assumption | adjt CF T CF3 T3].
  - apply ML3; [assumption|]. apply CF3; (eapply T3; [eassumption | eassumption | eassumption | lia | lia | lia | lia]).
Qed.
Notation DD := (LD (v3x (RV3 cr)) (v3y (RV3 cr)) (v3z (RV3 cr)) (v3x (RV3 cn)) (v3y (RV3 cn)) (v3z (RV3 cn)) (v3x (RV3 cd)) (v3y (RV3 cd)) (v3z (RV3 cd))).
Notation NI := (ent4 (Rinv4 (RM4 cM))).
Definition cF : Matrix4x4 (num A) := m4_divs (adj4 cM) (det4 cM).
Lemma cam_det : Finite (det4 cM) /\ Rabs (real_of (det4 cM) - DD) <= 67 * u /\ 99 / 100 <= DD <= 10001 / 10000 /\ mat_det 4 (ent4 (RM4 cM)) = DD.
Proof using H.
  destruct cam_fin as (m & _ & _ & _ & _ & _ & F). destruct cam_frame as (_ & FR & K & _). pose proof (t_u8 (A:=A)) as (_ & T & U). destruct cam_G as (G2 & GB & _).
  pose proof (lm_D _ _ _ _ _ _ _ _ _ _ _ U K FR) as D. pose proof (det4_apx cM cG cam_ents F) as E.
  pose proof (lm_perm _ _ _ _ _ _ _ _ _ _ _ (p3x (RP3 from)) (p3y (RP3 from)) (p3z (RP3 from)) U K FR) as P. rewrite <- cam_real in P.
  pose proof (lm_det (v3x (RV3 cr)) (v3y (RV3 cr)) (v3z (RV3 cr)) (v3x (RV3 cn)) (v3y (RV3 cn)) (v3z (RV3 cn)) (v3x (RV3 cd)) (v3y (RV3 cd)) (v3z (RV3 cd)) (p3x (RP3 from)) (p3y (RP3 from)) (p3z (RP3 from))) as DE. rewrite <- cam_real in DE. rewrite DE in E.
  split; [assumption|]. split; [|split; [exact D | exact DE]]. eapply Rle_trans; [exact E|]. eapply det_big; [exact U | exact T | exact G2 | exact GB | split; [|exact P] | reflexivity].
  unfold mat_abs. cbv [mat_perm mat_minor sum_n]. repeat (apply Rplus_le_le_0_compat || apply Rmult_le_pos || apply Rabs_pos || lra).
Qed.
Lemma cam_ok prof : m4_inverse prof cM = Ret (Ok cF).
Proof using H.
  destruct cam_det as (F & E & D & _). pose proof (t_u8 (A:=A)) as (_ & T & U). apply inv4_ok. destruct (seq (det4 cM) szero) eqn:S; [|reflexivity]. exfalso.
  assert (Z : negb (seq (det4 cM) szero) = false) by (now rewrite S). apply zero_det in Z. destruct Z as [_ Z]. rewrite Z in E. apply Rabs_le_inv in E. lra.
Qed.
Lemma cam_F : MFinite4 cF /\ (Zr (m4_12 cF) /\ Zr (m4_13 cF) /\ Zr (m4_14 cF)) /\ exists m, (1 <= m)%Z /\ okexp A (m + 40) /\ cG <= bpow radix2 m /\ Forall (Bk (m + 8)) (m4_comps cF).
Proof using H.
  destruct cam_fin as (m & M0 & K & GM & AJ & (Z12 & Z13 & Z14) & F). destruct cam_det as (_ & E & D & _). pose proof (t_u8 (A:=A)) as (_ & T & U).
  assert (L : / 2 <= Rabs (real_of (det4 cM))). { apply Rabs_le_inv in E. rewrite Rabs_pos_eq by lra. lra. }
  assert (N : real_of (det4 cM) <> 0) by (intros Q; rewrite Q, Rabs_R0 in L; lra).
  assert (Q : Forall (Bk (m + 8)) (m4_comps cF)).
  { unfold cF. set (a := adj4 cM) in *. clearbody a. set (d := det4 cM) in *. clearbody d. unfold m4_comps, m4_divs, m4_new in *. cbn [m4_0 m4_1 m4_2 m4_3 m4_4 m4_5 m4_6 m4_7 m4_8 m4_9 m4_10 m4_11 m4_12 m4_13 m4_14 m4_15].
    assert (DV : forall x, Bk (m + 7) x -> Bk (m + 8) (sdiv x d)) by (intros x X; eapply Bk_le; [apply (Bk_div (m + 7)); [exact X | assumption | assumption | lia | eapply okexp_le; [exact K | lia]] | lia]).
    repeat match goal with H : Forall _ (_ :: _) |- _ => let F := fresh "L" in let H' := fresh "H" in inversion H as [|? ? F H']; subst; clear H; rename H' into H end.
    repeat (constructor; [apply DV; assumption|]). constructor. }
  split; [|split; [unfold cF, m4_divs, m4_new; cbn [m4_12 m4_13 m4_14]; conjs; apply Zr_div; assumption | exists m; tauto]].
  unfold MFinite4. unfold m4_comps in Q. eapply Forall_impl; [|exact Q]. intros x [X _]. exact X.
Qed.

Notation fsum := (Rsum3 (toV3 (RP3 from))).
Lemma cam_acc_gen r c : (r < 4)%nat -> (c < 4)%nat ->
  Rabs (ent4 (RM4 cF) r c - NI r c) <= 10102 / 10000 * (80001 / 10000 * u * cof_size 4 (ent4 (RM4 cM)) r c + 6 * t * (cG + 1) + 67 * u * Rabs (NI r c)) + t /\ 0 <= cof_size 4 (ent4 (RM4 cM)) r c.
Proof using H.
  intros Hr Hc. destruct cam_det as (F & E & D & DE). destruct cam_F as (FF & _). pose proof (t_u8 (A:=A)) as (_ & T & U). destruct cam_G as (G2 & GB & _).
  assert (N : real_of (det4 cM) <> 0) by (intros Q; rewrite Q in E; apply Rabs_le_inv in E; lra).
  assert (LE : 67 * u < Rabs DD) by (rewrite Rabs_pos_eq by lra; lra).
  pose proof (inv4_acc cM cG DD (67 * u) cam_ents FF F N E LE (eq_sym DE) r c Hr Hc) as Q.
  assert (C0 : 0 <= cof_size 4 (ent4 (RM4 cM)) r c). { unfold cof_size, mat_abs. cbv [pred mat_perm mat_minor sum_n]. repeat (apply Rplus_le_le_0_compat || apply Rmult_le_pos || apply Rabs_pos || lra). }
  split; [|assumption]. destruct (pow8 u U) as [P0 P1]. assert (((1 + u) ^ 8 - 1) * cof_size 4 (ent4 (RM4 cM)) r c <= 80001 / 10000 * u * cof_size 4 (ent4 (RM4 cM)) r c) by (apply Rmult_le_compat_r; assumption).
  assert (0 <= 6 * t * (cG + 1)) by (apply Rmult_le_pos; lra). assert (0 <= ((1 + u) ^ 8 - 1) * cof_size 4 (ent4 (RM4 cM)) r c) by (apply Rmult_le_pos; assumption).
  eapply Rle_trans; [exact Q|]. eapply Rle_trans; [apply qe_bound; [exact U | lra | lra]|]. lra.
Qed.
Lemma cam_tG : 0 <= t * cG <= u / 128 /\ fsum = cG - 2.
Proof using H.
  destruct cam_G as (G2 & GB & _). pose proof (t_u8 (A:=A)) as (_ & T & U). split; [|unfold cG; ring]. split; [apply Rmult_le_pos; lra|]. assert (t * cG * 2 <= t * cG * cG) by (apply Rmult_le_compat_l; [apply Rmult_le_pos|]; lra). lra.
Qed.
Lemma cam_lin r c : (r < 3)%nat -> (c < 3)%nat -> Rabs (ent4 (RM4 cF) r c - NI r c) <= 86 * u /\ Rabs (NI r c) <= 1012 / 1000.
Proof using H.
  intros Hr Hc. destruct (cam_acc_gen r c ltac:(lia) ltac:(lia)) as [Q C0]. destruct cam_frame as (_ & FR & K & _). pose proof (t_u8 (A:=A)) as (T8 & T & U). destruct cam_tG as ((TG0 & TG) & _).
  pose proof (lm_cof_lin _ _ _ _ _ _ _ _ _ _ _ (p3x (RP3 from)) (p3y (RP3 from)) (p3z (RP3 from)) U K FR r c Hr Hc) as C.
  pose proof (lm_N _ _ _ _ _ _ _ _ _ _ _ (p3x (RP3 from)) (p3y (RP3 from)) (p3z (RP3 from)) U K FR r c Hr Hc) as N. rewrite <- cam_real in C, N.
  split; [|exact N]. assert (67 * u * Rabs (NI r c) <= 67 * u * (1012 / 1000)) by (apply Rmult_le_compat_l; lra).
  assert (80001 / 10000 * u * cof_size 4 (ent4 (RM4 cM)) r c <= 80001 / 10000 * u * (2005 / 1000)) by (apply Rmult_le_compat_l; lra). lra.
Qed.
Lemma cam_N3 r : (r < 3)%nat -> NI r 3%nat = - (NI r 0%nat * p3x (RP3 from) + NI r 1%nat * p3y (RP3 from) + NI r 2%nat * p3z (RP3 from)) /\ Rabs (NI r 3%nat) <= 1012 / 1000 * fsum.
Proof using H.
  intros Hr. destruct (cam_lin r 0 Hr ltac:(lia)) as [_ N0]. destruct (cam_lin r 1 Hr ltac:(lia)) as [_ N1]. destruct (cam_lin r 2 Hr ltac:(lia)) as [_ N2].
  assert (E : NI r 3%nat = - (NI r 0%nat * p3x (RP3 from) + NI r 1%nat * p3y (RP3 from) + NI r 2%nat * p3z (RP3 from))) by (rewrite cam_real; apply lm_tr; assumption).
  split; [exact E|]. rewrite E, Rabs_Ropp. exact (sum_err _ _ _ _ _ _ _ N0 N1 N2).
Qed.
Lemma cam_tr r : (r < 3)%nat -> Rabs (ent4 (RM4 cF) r 3%nat - NI r 3%nat) <= 86 * u * fsum + 195 / 10 * t.
Proof using H.
  intros Hr. destruct (cam_acc_gen r 3 ltac:(lia) ltac:(lia)) as [Q C0]. destruct cam_frame as (_ & FR & K & _). pose proof (t_u8 (A:=A)) as (T8 & T & U). destruct cam_tG as (_ & SG). destruct (cam_N3 r Hr) as [_ N]. destruct cam_G as (G2 & _ & GS).
  pose proof (lm_cof_tr _ _ _ _ _ _ _ _ _ _ _ (p3x (RP3 from)) (p3y (RP3 from)) (p3z (RP3 from)) U K FR r Hr) as C. rewrite <- cam_real in C. rewrite GS, <- SG in C.
  assert (SG' : cG = fsum + 2) by lra. set (f := fsum) in *. clearbody f. rewrite SG' in Q. assert (F0 : 0 <= f) by lra.
  assert (67 * u * Rabs (NI r 3%nat) <= 67 * u * (1012 / 1000 * f)) by (apply Rmult_le_compat_l; lra).
  assert (80001 / 10000 * u * cof_size 4 (ent4 (RM4 cM)) r 3 <= 80001 / 10000 * u * (2005 / 1000 * f)) by (apply Rmult_le_compat_l; lra).
  assert (t * f <= u / 1000000 * f) by (apply Rmult_le_compat_r; lra). assert (0 <= u * f) by (apply Rmult_le_pos; lra). lra.
Qed.
Lemma cam_w : Rabs (ent4 (RM4 cF) 3%nat 3%nat - 1) <= 118 * u.
Proof using H.
  destruct (cam_acc_gen 3 3 ltac:(lia) ltac:(lia)) as [Q C0]. destruct cam_frame as (_ & FR & K & _). pose proof (t_u8 (A:=A)) as (T8 & T & U). destruct cam_tG as ((TG0 & TG) & _).
  pose proof (lm_cof_w _ _ _ _ _ _ _ _ _ _ _ (p3x (RP3 from)) (p3y (RP3 from)) (p3z (RP3 from)) U K FR) as C.
  pose proof (lm_w _ _ _ _ _ _ _ _ _ _ _ (p3x (RP3 from)) (p3y (RP3 from)) (p3z (RP3 from)) U K FR) as N. rewrite <- cam_real in C, N. rewrite N, Rabs_R1 in Q.
  assert (80001 / 10000 * u * cof_size 4 (ent4 (RM4 cM)) 3 3 <= 80001 / 10000 * u * (6024 / 1000)) by (apply Rmult_le_compat_l; lra). lra.
Qed.

Definition cN (v : Vector3 R) : Vector3 R :=
  mkVector3 (NI 0%nat 0%nat * v3x v + NI 0%nat 1%nat * v3y v + NI 0%nat 2%nat * v3z v) (NI 1%nat 0%nat * v3x v + NI 1%nat 1%nat * v3y v + NI 1%nat 2%nat * v3z v) (NI 2%nat 0%nat * v3x v + NI 2%nat 1%nat * v3y v + NI 2%nat 2%nat * v3z v).
Lemma cam_vec (v : Vector3 (num A)) d : Finite (vcoord3 (m4_mul_vector cF v) d) -> Rabs (real_of (vcoord3 (m4_mul_vector cF v) d) - vcoord3 (cN (RV3 v)) d) <= 90 * u * Rsum3 (RV3 v) + 3 * t.
Proof using H.
  intros F. pose proof (C56_matrix_vector_accurate_3d_pf A cF v d F) as E. cbv zeta in E. pose proof (t_u8 (A:=A)) as (T8 & T & U). pose proof (g_small u 3 U ltac:(lia)) as G0.
  assert (G : 0 <= (1 + u) ^ 3 - 1 <= 3001 / 1000 * u). { split; [lra|]. assert (0 <= u * u <= / 16777216 * u) by nra. assert (u * u * u <= / 16777216 * u) by nra. cbn. lra. }
  clear G0.
  assert (R : forall r, (r < 3)%nat -> mat_apply 4 (ent4 (RM4 cF)) (dir3 (RV3 v)) r = ent4 (RM4 cF) r 0%nat * v3x (RV3 v) + ent4 (RM4 cF) r 1%nat * v3y (RV3 v) + ent4 (RM4 cF) r 2%nat * v3z (RV3 v) /\
    mat_apply 4 (mat_abs (ent4 (RM4 cF))) (dir3 (absV3 (RV3 v))) r = Rabs (ent4 (RM4 cF) r 0%nat) * Rabs (v3x (RV3 v)) + Rabs (ent4 (RM4 cF) r 1%nat) * Rabs (v3y (RV3 v)) + Rabs (ent4 (RM4 cF) r 2%nat) * Rabs (v3z (RV3 v))).
  { intros r _. unfold mat_apply, mat_abs, dir3, absV3. cbn -[ent4 RM4 RV3]. split; ring. }
  assert (Q : forall r x, (r < 3)%nat -> Rabs (x - mat_apply 4 (ent4 (RM4 cF)) (dir3 (RV3 v)) r) <= ((1 + u) ^ 3 - 1) * mat_apply 4 (mat_abs (ent4 (RM4 cF))) (dir3 (absV3 (RV3 v))) r + 3 * t ->
    Rabs (x - (NI r 0%nat * v3x (RV3 v) + NI r 1%nat * v3y (RV3 v) + NI r 2%nat * v3z (RV3 v))) <= 90 * u * Rsum3 (RV3 v) + 3 * t).
  { intros r x Hr X. destruct (R r Hr) as [R1 R2]. rewrite R1, R2 in X. destruct (cam_lin r 0 Hr ltac:(lia)) as [E0 N0]. destruct (cam_lin r 1 Hr ltac:(lia)) as [E1 N1]. destruct (cam_lin r 2 Hr ltac:(lia)) as [E2 N2].
    destruct (vrow u ((1 + u) ^ 3 - 1) _ _ _ _ _ _ (v3x (RV3 v)) (v3y (RV3 v)) (v3z (RV3 v)) U ltac:(lra) E0 E1 E2 N0 N1 N2) as [V1 V2].
    assert (S0 : 0 <= Rsum3 (RV3 v)) by (unfold Rsum3; pose proof (Rabs_pos (v3x (RV3 v))); pose proof (Rabs_pos (v3y (RV3 v))); pose proof (Rabs_pos (v3z (RV3 v))); lra). fold (Rsum3 (RV3 v)) in V1, V2.
    match goal with |- Rabs (x - ?n) <= _ => match type of V1 with Rabs (?f - _) <= _ => replace (x - n) with ((x - f) + (f - n)) by ring end end. eapply Rle_trans; [apply Rabs_triang|].
    assert (102 / 100 * ((1 + u) ^ 3 - 1) * Rsum3 (RV3 v) <= 102 / 100 * (3001 / 1000 * u) * Rsum3 (RV3 v)) by (apply Rmult_le_compat_r; lra). assert (0 <= u * Rsum3 (RV3 v)) by (apply Rmult_le_pos; lra). lra. }
  destruct d; cbn [vcoord3 cN v3x v3y v3z dim3_index] in *; refine (Q _ _ _ E); lia.
Qed.
Lemma cam_wsum (p : Point3 (num A)) : Finite3 p -> tx (sadd (sadd (sadd (smul (m4_12 cF) (p3x p)) (smul (m4_13 cF) (p3y p))) (smul (m4_14 cF) (p3z p))) (m4_15 cF)) = tx (m4_15 cF).
Proof using H.
  intros Fp. destruct cam_F as (FF & (Z1 & Z2 & Z3) & _). apply Zr_tx in Z1, Z2, Z3. pose proof (Finite_real _ (Fp D3X)) as P1. pose proof (Finite_real _ (Fp D3Y)) as P2. pose proof (Finite_real _ (Fp D3Z)) as P3. cbn [coord3] in *.
  rewrite !tx_add, !tx_mul, Z1, Z2, Z3, P1, P2, P3. cbn [xmul]. rewrite !Rmult_0_l, !xr_0. cbn [xadd]. rewrite !Rplus_0_l, !xr_0. cbn [xadd]. rewrite !Rplus_0_l, !xr_0. rewrite xadd_0_l. apply xr_tx.
Qed.
Definition pv (p : Point3 R) : Vector3 R := mkVector3 (p3x p - p3x (RP3 from)) (p3y p - p3y (RP3 from)) (p3z p - p3z (RP3 from)).
Lemma cam_pt (p : Point3 (num A)) d : Finite3 p -> Finite (coord3 (m4_mul_point cF p) d) -> Rabs (real_of (coord3 (m4_mul_point cF p) d) - vcoord3 (cN (pv (RP3 p))) d) <= 212 * u * (Rsum3 (toV3 (RP3 p)) + fsum) + 24 * t.
Proof using H.
  intros Fp F. pose proof (t_u8 (A:=A)) as (T8 & T & U). pose proof (g_small u 4 U ltac:(lia)) as G0.
  assert (G : 0 <= (1 + u) ^ 4 - 1 <= 4001 / 1000 * u). { split; [lra|]. assert (0 <= u * u <= / 16777216 * u) by nra. assert (0 <= u * u * u <= / 16777216 * u) by nra. assert (u * u * u * u <= / 16777216 * u) by nra. cbn. lra. } clear G0.
  pose proof cam_w as W. pose proof (cam_wsum p Fp) as WS. destruct cam_F as (FF & _).
  assert (FW : Finite (m4_15 cF)) by (unfold MFinite4 in FF; repeat match goal with H : Forall _ (_ :: _) |- _ => let F := fresh "L" in let H' := fresh "H" in inversion H as [|? ? F H']; subst; clear H; rename H' into H end; assumption).
  unfold m4_mul_point, p3_new in F |- *.
  set (w := sadd (sadd (sadd (smul (m4_12 cF) (p3x p)) (smul (m4_13 cF) (p3y p))) (smul (m4_14 cF) (p3z p))) (m4_15 cF)) in *.
  destruct (real_of_eq _ _ WS) as [FW' VW]. rewrite <- FW' in FW. specialize (VW FW). change (ent4 (RM4 cF) 3%nat 3%nat) with (real_of (m4_15 cF)) in W. rewrite <- VW in W.
  assert (W0 : real_of w <> 0) by (intros Z; rewrite Z in W; apply Rabs_le_inv in W; lra).
  assert (P0 : 0 <= Rsum3 (toV3 (RP3 p))) by (unfold Rsum3; pose proof (Rabs_pos (v3x (toV3 (RP3 p)))); pose proof (Rabs_pos (v3y (toV3 (RP3 p)))); pose proof (Rabs_pos (v3z (toV3 (RP3 p)))); lra).
  assert (F0 : 0 <= fsum) by (unfold Rsum3; pose proof (Rabs_pos (v3x (toV3 (RP3 from)))); pose proof (Rabs_pos (v3y (toV3 (RP3 from)))); pose proof (Rabs_pos (v3z (toV3 (RP3 from)))); lra).
  assert (Q : forall r (a b c e : num A), (r < 3)%nat -> real_of a = ent4 (RM4 cF) r 0%nat -> real_of b = ent4 (RM4 cF) r 1%nat -> real_of c = ent4 (RM4 cF) r 2%nat -> real_of e = ent4 (RM4 cF) r 3%nat ->
    let x := sadd (sadd (sadd (smul a (p3x p)) (smul b (p3y p))) (smul c (p3z p))) e in Finite (sdiv x w) ->
    Rabs (real_of (sdiv x w) - (NI r 0%nat * (p3x (RP3 p) - p3x (RP3 from)) + NI r 1%nat * (p3y (RP3 p) - p3y (RP3 from)) + NI r 2%nat * (p3z (RP3 p) - p3z (RP3 from)))) <= 212 * u * (Rsum3 (toV3 (RP3 p)) + fsum) + 24 * t).
  { intros r a b c e Hr Ea Eb Ec Ee x Fx. destruct (err_div x w Fx FW W0) as (Fn & d1 & e1 & D1 & D2 & V).
    destruct (cam_lin r 0 Hr ltac:(lia)) as [E0 N0]. destruct (cam_lin r 1 Hr ltac:(lia)) as [E1 N1]. destruct (cam_lin r 2 Hr ltac:(lia)) as [E2 N2]. pose proof (cam_tr r Hr) as E3. destruct (cam_N3 r Hr) as [N3 B3].
    assert (X : Rabs (real_of x - (ent4 (RM4 cF) r 0%nat * p3x (RP3 p) + ent4 (RM4 cF) r 1%nat * p3y (RP3 p) + ent4 (RM4 cF) r 2%nat * p3z (RP3 p) + ent4 (RM4 cF) r 3%nat)) <=
      ((1 + u) ^ 4 - 1) * (Rabs (ent4 (RM4 cF) r 0%nat) * Rabs (p3x (RP3 p)) + Rabs (ent4 (RM4 cF) r 1%nat) * Rabs (p3y (RP3 p)) + Rabs (ent4 (RM4 cF) r 2%nat) * Rabs (p3z (RP3 p)) + Rabs (ent4 (RM4 cF) r 3%nat)) + 3 * t).
    { rewrite <- Ea, <- Eb, <- Ec, <- Ee. eapply Apx_bound; [| apply Apx_plus; [exact Fn | intros F1; exact (Apx_dot3 _ _ _ _ _ _ F1)] |]; [lia | lra]. }
    destruct (vrow u ((1 + u) ^ 4 - 1) _ _ _ _ _ _ (p3x (RP3 p)) (p3y (RP3 p)) (p3z (RP3 p)) U G E0 E1 E2 N0 N1 N2) as [V1 V2].
    change (Rabs (p3x (RP3 p)) + Rabs (p3y (RP3 p)) + Rabs (p3z (RP3 p))) with (Rsum3 (toV3 (RP3 p))) in V1, V2.
    pose proof (sum_err _ _ _ (p3x (RP3 p)) (p3y (RP3 p)) (p3z (RP3 p)) _ N0 N1 N2) as B. change (Rabs (p3x (RP3 p)) + Rabs (p3y (RP3 p)) + Rabs (p3z (RP3 p))) with (Rsum3 (toV3 (RP3 p))) in B.
    set (P := Rsum3 (toV3 (RP3 p))) in *. set (f := fsum) in *. clearbody P f.
    assert (US : 0 <= u * P) by (apply Rmult_le_pos; lra). assert (UF : 0 <= u * f) by (apply Rmult_le_pos; lra).
    assert (B3' : Rabs (ent4 (RM4 cF) r 3%nat) <= 102 / 100 * f + 20 * t). { replace (ent4 (RM4 cF) r 3%nat) with ((ent4 (RM4 cF) r 3%nat - NI r 3%nat) + NI r 3%nat) by ring. eapply Rle_trans; [apply Rabs_triang|]. assert (u * f <= / 16777216 * f) by (apply Rmult_le_compat_r; lra). lra. }
    assert (V3 : ((1 + u) ^ 4 - 1) * Rabs (ent4 (RM4 cF) r 3%nat) <= 4001 / 1000 * u * (102 / 100 * f + 20 * t)) by (apply Rmult_le_compat; try apply Rabs_pos; lra).
    assert (V4 : 102 / 100 * ((1 + u) ^ 4 - 1) * P <= 102 / 100 * (4001 / 1000 * u) * P) by (apply Rmult_le_compat_r; lra).
    assert (UT : 0 <= u * t <= / 16777216 * t) by (split; [apply Rmult_le_pos; lra | apply Rmult_le_compat_r; lra]).
    eapply pt_div with (x := real_of x) (w := real_of w); [exact U | exact T | lra | | | exact W | exact D1 | exact D2 | exact V].
    - match goal with |- Rabs (?x - ?n) <= _ => replace (x - n) with ((x - (ent4 (RM4 cF) r 0%nat * p3x (RP3 p) + ent4 (RM4 cF) r 1%nat * p3y (RP3 p) + ent4 (RM4 cF) r 2%nat * p3z (RP3 p) + ent4 (RM4 cF) r 3%nat)) +
        ((ent4 (RM4 cF) r 0%nat * p3x (RP3 p) + ent4 (RM4 cF) r 1%nat * p3y (RP3 p) + ent4 (RM4 cF) r 2%nat * p3z (RP3 p)) - (NI r 0%nat * p3x (RP3 p) + NI r 1%nat * p3y (RP3 p) + NI r 2%nat * p3z (RP3 p)) + (ent4 (RM4 cF) r 3%nat - NI r 3%nat))) by (rewrite N3; ring) end.
      eapply Rle_trans; [apply Rabs_triang|]. eapply Rle_trans; [apply Rplus_le_compat_l; apply Rabs_triang|]. lra.
    - match goal with |- Rabs ?n <= _ => replace n with ((NI r 0%nat * p3x (RP3 p) + NI r 1%nat * p3y (RP3 p) + NI r 2%nat * p3z (RP3 p)) + NI r 3%nat) by (rewrite N3; ring) end.
      eapply Rle_trans; [apply Rabs_triang|]. lra. }
  destruct d; cbn [coord3 vcoord3 cN pv v3x v3y v3z p3x p3y p3z] in *; (apply Q; [lia | reflexivity | reflexivity | reflexivity | reflexivity | exact F]).
Qed.
End Cam.
