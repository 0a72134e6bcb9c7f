(** Proofs: arithmetic on a dyadic grid is exact in floating point. *)
From Coq Require Import Bool NArith ZArith Reals List Lra Lia.
From Flocq Require Import Core.Zaux Core.Raux Core.Defs Core.Generic_fmt Core.FLT IEEE754.BinarySingleNaN.
From Verif Require Import Scalar Types Vector2 Vector3 Point2 Point3 Ray BoundingBox2 BoundingBox3 Transform2 Transform3 Float
  XReal OrdLaws Arith SpecOrder SpecStruct SpecFloat SpecReal SpecBox SpecErr SpecGrid FloatX XArith FloatLaws FloatTrans ExactBase ExactRot ErrBase FloatErr FloatInt FloatInv ExVals.
Import ListNotations.
Local Open Scope R_scope.
Section I.
Context {f : format} {P : platform f}.
Notation A := (IEEE f P).
Notation K := (2 ^ prec f)%Z.
Definition GS (x : num A) (r : R) (b e : Z) : Prop := tx x = Fin r /\ exists n, r = IZR n * bpow radix2 e /\ (Z.abs n <= b)%Z.
Lemma grid_fix n e : (Z.abs n < K)%Z -> (-149 <= e <= 104)%Z -> xr A (Fin (IZR n * bpow radix2 e)) = Fin (IZR n * bpow radix2 e).
Proof.
  intros H E. cbn [xr]. apply xround_repr.
  - apply generic_format_FLT. exists (Float radix2 n e); [reflexivity | exact H | change (femin f <= e)%Z; destruct f; vm_compute femin; lia].
  - rewrite Rabs_mult, <- abs_IZR, (Rabs_pos_eq (bpow radix2 e)) by apply bpow_ge_0. apply Rlt_le_trans with (IZR K * bpow radix2 e).
    + apply Rmult_lt_compat_r; [apply bpow_gt_0 | now apply IZR_lt].
    + rewrite (K_bpow (P:=P)), <- bpow_plus. apply bpow_le. destruct f; cbn [prec emax]; lia.
Qed.
Lemma GS_intro (x : num A) (y : xreal) n b e r : tx x = xr A y -> y = Fin r -> r = IZR n * bpow radix2 e -> (Z.abs n <= b)%Z -> (b < K)%Z -> (-149 <= e <= 104)%Z -> GS x r b e.
Proof. intros E -> -> B L G. split; [|exists n; auto]. rewrite E. apply grid_fix; [lia | assumption]. Qed.
Lemma GS_add x y r s b c e : GS x r b e -> GS y s c e -> (b + c < K)%Z -> (-149 <= e <= 104)%Z -> GS (sadd x y) (r + s) (b + c) e.
Proof.
  intros (E1 & n & -> & B1) (E2 & m & -> & B2) L G. apply GS_intro with (xadd (tx x) (tx y)) (n + m)%Z; try assumption; [apply tx_add | now rewrite E1, E2 | rewrite plus_IZR; ring | lia].
Qed.
Lemma GS_sub x y r s b c e : GS x r b e -> GS y s c e -> (b + c < K)%Z -> (-149 <= e <= 104)%Z -> GS (ssub x y) (r - s) (b + c) e.
Proof.
  intros (E1 & n & -> & B1) (E2 & m & -> & B2) L G. apply GS_intro with (xsub (tx x) (tx y)) (n - m)%Z; try assumption; [apply tx_sub | now rewrite E1, E2 | rewrite minus_IZR; ring | lia].
Qed.
Lemma GS_mul x y r s b c e e' : GS x r b e -> GS y s c e' -> (b * c < K)%Z -> (-149 <= e + e' <= 104)%Z -> GS (smul x y) (r * s) (b * c) (e + e').
Proof.
  intros (E1 & n & -> & B1) (E2 & m & -> & B2) L G. apply GS_intro with (xmul (tx x) (tx y)) (n * m)%Z; try assumption; [apply tx_mul | now rewrite E1, E2 | rewrite mult_IZR, bpow_plus; ring |].
  rewrite Z.abs_mul. apply Z.mul_le_mono_nonneg; lia.
Qed.
Lemma GS_half : GS shalf (/ 2) 1 (-1).
Proof. split; [apply tx_half|]. exists 1%Z. split; [cbn; lra | lia]. Qed.
Lemma GS_two : GS stwo 2 2 0.
Proof. split; [apply tx_2|]. exists 2%Z. split; [cbn; lra | lia]. Qed.
(* the same number on a grid finer by k bits *)
Lemma GS_finer x r b e k c : GS x r b e -> (0 <= k)%Z -> (c = b * 2 ^ k)%Z -> GS x r c (e - k).
Proof.
  intros (E & n & -> & B) K0 ->. split; [exact E|]. exists (n * 2 ^ k)%Z. split.
  - rewrite mult_IZR, (IZR_Zpower radix2) by assumption. rewrite Rmult_assoc, <- bpow_plus. do 2 f_equal. ring.
  - rewrite Z.abs_mul, (Z.abs_eq (2 ^ k)) by (apply Z.pow_nonneg; lia). apply Z.mul_le_mono_nonneg_r; [apply Z.pow_nonneg; lia | assumption].
Qed.
Lemma GS_leaf (x : num A) e B : on_grid e B x -> GS x (real_of x) B e.
Proof. intros [F (n & E & L)]. split; [now apply Finite_real | eauto]. Qed.
Lemma GS_val x r b e : GS x r b e -> forall s, s = r -> RealVal x s.
Proof. intros [E _] s ->. now apply RealVal_tx. Qed.
Lemma GS_lt x y r s b c e e' : GS x r b e -> GS y s c e' -> (slt x y = true <-> r < s).
Proof. intros [E1 _] [E2 _]. rewrite tx_lt, E1, E2. apply xlt_fin. Qed.
Lemma GS_le x r b c e : GS x r b e -> (b <= c)%Z -> GS x r c e.
Proof. intros (E & n & -> & B) L. split; [assumption|]. exists n. split; [reflexivity | lia]. Qed.
Lemma GS_back x y r s b e : GS x r b e -> GS y s b e -> (2 * b < K)%Z -> (-149 <= e <= 104)%Z -> Eqs (sadd y (ssub x y)) x.
Proof.
  intros G1 G2 L G. destruct (GS_sub x y r s b b e G1 G2 ltac:(lia) G) as [E _]. destruct G1 as (E1 & n & -> & B1). destruct G2 as (E2 & _).
  apply Eqs_tx. rewrite tx_add, E, E1, E2. cbn [xadd]. replace (s + (IZR n * bpow radix2 e - s)) with (IZR n * bpow radix2 e) by ring.
  rewrite grid_fix by lia. split; [reflexivity | discriminate].
Qed.
Lemma GS_div1 x w r b e : GS x r b e -> tx w = Fin 1 -> GS (sdiv x w) r b e.
Proof. intros [E H] W. split; [|assumption]. now rewrite div_1. Qed.
Lemma affine_real2 (m : Matrix3x3 (num A)) : Affine3x3 m -> affine2 (RM3 m).
Proof.
  intros (A0 & A1 & A2). apply Eqs_tx in A0, A1, A2. rewrite tx_0 in A0, A1. rewrite tx_1 in A2.
  repeat split; apply real_of_tx; tauto.
Qed.
Lemma affine_real3 (m : Matrix4x4 (num A)) : Affine4x4 m -> affine3 (RM4 m).
Proof.
  intros (A0 & A1 & A2 & A3). apply Eqs_tx in A0, A1, A2, A3. rewrite tx_0 in A0, A1, A2. rewrite tx_1 in A3.
  repeat split; apply real_of_tx; tauto.
Qed.
Lemma grid_nonneg (x : num A) e B : on_grid e B x -> (0 <= B)%Z.
Proof. intros [_ (n & _ & L)]. lia. Qed.
End I.
Ltac conjs := lazymatch goal with |- _ /\ _ => split; conjs | |- _ => idtac end.
Ltac allf := repeat match goal with H : Forall _ (_ :: _) |- _ => apply Forall_cons_iff in H; let G := fresh "G" in destruct H as [G H] end; repeat match goal with H : on_grid _ _ _ |- _ => apply GS_leaf in H end.
Ltac gs_t := lazymatch goal with
  | |- GS (sadd _ _) _ _ _ => eapply GS_add; [gs_t | gs_t | try lia | try lia]
  | |- GS (fadd _ _) _ _ _ => eapply GS_add; [gs_t | gs_t | try lia | try lia]
  | |- GS (ssub _ _) _ _ _ => eapply GS_sub; [gs_t | gs_t | try lia | try lia]
  | |- GS (fsub _ _) _ _ _ => eapply GS_sub; [gs_t | gs_t | try lia | try lia]
  | |- GS (smul _ _) _ _ _ => eapply GS_mul; [gs_t | gs_t | try lia | try lia]
  | |- GS (fmul _ _) _ _ _ => eapply GS_mul; [gs_t | gs_t | try lia | try lia]
  | |- GS shalf _ _ _ => exact GS_half
  | |- GS stwo _ _ _ => exact GS_two
  | |- _ => first [eassumption | apply GS_leaf; eauto]
  end.
Ltac gs_v := eapply GS_val; [gs_t | try (cbn; ring)].
Lemma C73_sums_exact_2d_pf : forall (f : format) (P : platform f) (e B : Z) (p q : Point2 (num (IEEE f P))) (v w : Vector2 (num (IEEE f P))), (-30 <= e <= 30)%Z -> (2 * B < 2 ^ prec f)%Z ->
  Pgrid2 e B p -> Pgrid2 e B q -> Vgrid2 e B v -> Vgrid2 e B w -> forall d,
  RealVal (coord2 (p2_add p v) d) (real_of (coord2 p d) + real_of (vcoord2 v d)) /\
  RealVal (coord2 (p2_sub_v p v) d) (real_of (coord2 p d) - real_of (vcoord2 v d)) /\
  RealVal (vcoord2 (p2_sub p q) d) (real_of (coord2 p d) - real_of (coord2 q d)) /\
  RealVal (vcoord2 (v2_add v w) d) (real_of (vcoord2 v d) + real_of (vcoord2 w d)) /\
  RealVal (vcoord2 (v2_sub v w) d) (real_of (vcoord2 v d) - real_of (vcoord2 w d)).
Proof.
  intros f P e B p q v w He HB Hp Hq Hv Hw d. specialize (Hp d). specialize (Hq d). specialize (Hv d). specialize (Hw d). apply GS_leaf in Hp, Hq, Hv, Hw.
  destruct d; cbn [coord2 vcoord2] in *; unfold p2_add, p2_sub_v, p2_sub, v2_add, v2_sub, p2_new, v2_new; cbn [p2x p2y v2x v2y]; conjs; gs_v.
Qed.
Lemma C73_sums_exact_3d_pf : forall (f : format) (P : platform f) (e B : Z) (p q : Point3 (num (IEEE f P))) (v w : Vector3 (num (IEEE f P))), (-30 <= e <= 30)%Z -> (2 * B < 2 ^ prec f)%Z ->
  Pgrid3 e B p -> Pgrid3 e B q -> Vgrid3 e B v -> Vgrid3 e B w -> forall d,
  RealVal (coord3 (p3_add p v) d) (real_of (coord3 p d) + real_of (vcoord3 v d)) /\
  RealVal (coord3 (p3_sub_v p v) d) (real_of (coord3 p d) - real_of (vcoord3 v d)) /\
  RealVal (vcoord3 (p3_sub p q) d) (real_of (coord3 p d) - real_of (coord3 q d)) /\
  RealVal (vcoord3 (v3_add v w) d) (real_of (vcoord3 v d) + real_of (vcoord3 w d)) /\
  RealVal (vcoord3 (v3_sub v w) d) (real_of (vcoord3 v d) - real_of (vcoord3 w d)).
Proof.
  intros f P e B p q v w He HB Hp Hq Hv Hw d. specialize (Hp d). specialize (Hq d). specialize (Hv d). specialize (Hw d). apply GS_leaf in Hp, Hq, Hv, Hw.
  destruct d; cbn [coord3 vcoord3] in *; unfold p3_add, p3_sub_v, p3_sub, v3_add, v3_sub, p3_new, v3_new; cbn [p3x p3y p3z v3x v3y v3z]; conjs; gs_v.
Qed.
Lemma C73_difference_round_trip_2d_pf : forall (f : format) (P : platform f) (e B : Z) (p q : Point2 (num (IEEE f P))), (-30 <= e <= 30)%Z -> (2 * B < 2 ^ prec f)%Z -> Pgrid2 e B p -> Pgrid2 e B q ->
  PEq2 (p2_add q (p2_sub p q)) p.
Proof.
  intros f P e B p q He HB Hp Hq d. specialize (Hp d). specialize (Hq d). apply GS_leaf in Hp, Hq.
  destruct d; cbn [coord2] in *; unfold p2_add, p2_sub, p2_new, v2_new; cbn [p2x p2y v2x v2y]; eapply GS_back; try eassumption; lia.
Qed.
Lemma C73_difference_round_trip_3d_pf : forall (f : format) (P : platform f) (e B : Z) (p q : Point3 (num (IEEE f P))), (-30 <= e <= 30)%Z -> (2 * B < 2 ^ prec f)%Z -> Pgrid3 e B p -> Pgrid3 e B q ->
  PEq3 (p3_add q (p3_sub p q)) p.
Proof.
  intros f P e B p q He HB Hp Hq d. specialize (Hp d). specialize (Hq d). apply GS_leaf in Hp, Hq.
  destruct d; cbn [coord3] in *; unfold p3_add, p3_sub, p3_new, v3_new; cbn [p3x p3y p3z v3x v3y v3z]; eapply GS_back; try eassumption; lia.
Qed.
Lemma C73_dot_exact_2d_pf : forall (f : format) (P : platform f) (e B : Z) (v w : Vector2 (num (IEEE f P))), (-30 <= e <= 30)%Z -> (2 * (B * B) < 2 ^ prec f)%Z -> Vgrid2 e B v -> Vgrid2 e B w ->
  RealVal (v2_dot v w) (Rdot2 (RV2 v) (RV2 w)) /\
  (v2_is_shorter_than v w = true <-> Rnorm2 (RV2 v) < Rnorm2 (RV2 w)) /\ (v2_is_longer_than v w = true <-> Rnorm2 (RV2 v) > Rnorm2 (RV2 w)).
Proof.
  intros f P e B v w He HB Hv Hw. pose proof (GS_leaf _ _ _ (Hv D2X)) as VX. pose proof (GS_leaf _ _ _ (Hw D2X)) as WX. pose proof (GS_leaf _ _ _ (Hv D2Y)) as VY. pose proof (GS_leaf _ _ _ (Hw D2Y)) as WY. cbn [vcoord2] in *.
  assert (D : forall a b : Vector2 (num (IEEE f P)), Vgrid2 e B a -> Vgrid2 e B b -> GS (v2_dot a b) (Rdot2 (RV2 a) (RV2 b)) (2 * (B * B)) (e + e)).
  { intros a b Ha Hb. pose proof (GS_leaf _ _ _ (Ha D2X)) as AX. pose proof (GS_leaf _ _ _ (Hb D2X)) as BX. pose proof (GS_leaf _ _ _ (Ha D2Y)) as AY. pose proof (GS_leaf _ _ _ (Hb D2Y)) as BY. cbn [vcoord2] in *. unfold v2_dot. eapply GS_le; [gs_t|]. lia. }
  split; [eapply GS_val; [now apply D | reflexivity]|].
  assert (N : forall a b : Vector2 R, Rdot2 a a < Rdot2 b b <-> Rnorm2 a < Rnorm2 b).
  { intros a b. unfold Rnorm2. split; intros H.
    - apply sqrt_lt_1_alt. split; [|unfold Rdot2 in H; cbn; cbn in H; lra]. clear. pose proof (pow2_ge_0 (v2x a)). pose proof (pow2_ge_0 (v2y a)). lra.
    - apply Rnot_le_lt. intros C. apply (Rlt_not_le _ _ H). apply sqrt_le_1_alt. unfold Rdot2 in C. cbn; cbn in C; lra. }
  split; [rewrite <- N | unfold Rgt; rewrite <- N]; eapply GS_lt; now apply D.
Qed.
Lemma C73_dot_exact_3d_pf : forall (f : format) (P : platform f) (e B : Z) (v w : Vector3 (num (IEEE f P))), (-30 <= e <= 30)%Z -> (3 * (B * B) < 2 ^ prec f)%Z -> Vgrid3 e B v -> Vgrid3 e B w ->
  RealVal (v3_dot v w) (Rdot3 (RV3 v) (RV3 w)) /\
  (v3_is_shorter_than v w = true <-> Rnorm3 (RV3 v) < Rnorm3 (RV3 w)) /\ (v3_is_longer_than v w = true <-> Rnorm3 (RV3 v) > Rnorm3 (RV3 w)).
Proof.
  intros f P e B v w He HB Hv Hw. pose proof (GS_leaf _ _ _ (Hv D3X)) as VX. pose proof (GS_leaf _ _ _ (Hw D3X)) as WX. pose proof (GS_leaf _ _ _ (Hv D3Y)) as VY. pose proof (GS_leaf _ _ _ (Hw D3Y)) as WY. pose proof (GS_leaf _ _ _ (Hv D3Z)) as VZ. pose proof (GS_leaf _ _ _ (Hw D3Z)) as WZ. cbn [vcoord3] in *.
  assert (D : forall a b : Vector3 (num (IEEE f P)), Vgrid3 e B a -> Vgrid3 e B b -> GS (v3_dot a b) (Rdot3 (RV3 a) (RV3 b)) (3 * (B * B)) (e + e)).
  { intros a b Ha Hb. pose proof (GS_leaf _ _ _ (Ha D3X)) as AX. pose proof (GS_leaf _ _ _ (Hb D3X)) as BX. pose proof (GS_leaf _ _ _ (Ha D3Y)) as AY. pose proof (GS_leaf _ _ _ (Hb D3Y)) as BY. pose proof (GS_leaf _ _ _ (Ha D3Z)) as AZ. pose proof (GS_leaf _ _ _ (Hb D3Z)) as BZ. cbn [vcoord3] in *. unfold v3_dot. eapply GS_le; [gs_t|]. lia. }
  split; [eapply GS_val; [now apply D | reflexivity]|].
  assert (N : forall a b : Vector3 R, Rdot3 a a < Rdot3 b b <-> Rnorm3 a < Rnorm3 b).
  { intros a b. unfold Rnorm3. split; intros H.
    - apply sqrt_lt_1_alt. split; [|unfold Rdot3 in H; cbn; cbn in H; lra]. clear. pose proof (pow2_ge_0 (v3x a)). pose proof (pow2_ge_0 (v3y a)). pose proof (pow2_ge_0 (v3z a)). lra.
    - apply Rnot_le_lt. intros C. apply (Rlt_not_le _ _ H). apply sqrt_le_1_alt. unfold Rdot3 in C. cbn; cbn in C; lra. }
  split; [rewrite <- N | unfold Rgt; rewrite <- N]; eapply GS_lt; now apply D.
Qed.
Lemma C73_closer_exact_2d_pf : forall (f : format) (P : platform f) (e B : Z) (p q r : Point2 (num (IEEE f P))), (-30 <= e <= 30)%Z -> (2 * (4 * (B * B)) < 2 ^ prec f)%Z -> Pgrid2 e B p -> Pgrid2 e B q -> Pgrid2 e B r ->
  (p2_is_closer_to p q r = true <-> Rdist2 (RP2 q) (RP2 p) < Rdist2 (RP2 r) (RP2 p)) /\ (p2_is_farther_from p q r = true <-> Rdist2 (RP2 q) (RP2 p) > Rdist2 (RP2 r) (RP2 p)).
Proof.
  intros f P e B p q r He HB Hp Hq Hr.
  assert (B0 : (0 <= B)%Z) by exact (grid_nonneg _ _ _ (Hp D2X)).
  assert (D : forall a : Point2 (num (IEEE f P)), Pgrid2 e B a -> exists s, GS (v2_dot (p2_sub a p) (p2_sub a p)) s (2 * (4 * (B * B))) (e + e) /\ Rdist2 (RP2 a) (RP2 p) = sqrt s /\ 0 <= s).
  { intros a Ha. pose proof (GS_leaf _ _ _ (Ha D2X)) as AX. pose proof (GS_leaf _ _ _ (Hp D2X)) as BX. pose proof (GS_leaf _ _ _ (Ha D2Y)) as AY. pose proof (GS_leaf _ _ _ (Hp D2Y)) as BY. cbn [coord2] in *. eexists. split; [unfold v2_dot, p2_sub, v2_new; cbn [p2x p2y v2x v2y]; eapply GS_le; [gs_t; nia|]; lia|]. split; [unfold Rdist2, RP2; cbn [p2x p2y v2x v2y]; f_equal; ring|]. repeat apply Rplus_le_le_0_compat; apply Rle_0_sqr. }
  destruct (D q Hq) as (s1 & G1 & -> & S1). destruct (D r Hr) as (s2 & G2 & -> & S2).
  assert (N : forall a b, 0 <= a -> 0 <= b -> (a < b <-> sqrt a < sqrt b)) by (intros a b Pa Pb; split; [intros; apply sqrt_lt_1; assumption | intros; now apply sqrt_lt_0_alt]).
  split; [rewrite <- N by assumption | unfold Rgt; rewrite <- N by assumption]; eapply GS_lt; eassumption.
Qed.
Lemma C73_closer_exact_3d_pf : forall (f : format) (P : platform f) (e B : Z) (p q r : Point3 (num (IEEE f P))), (-30 <= e <= 30)%Z -> (3 * (4 * (B * B)) < 2 ^ prec f)%Z -> Pgrid3 e B p -> Pgrid3 e B q -> Pgrid3 e B r ->
  (p3_is_closer_to p q r = true <-> Rdist3 (RP3 q) (RP3 p) < Rdist3 (RP3 r) (RP3 p)) /\ (p3_is_farther_from p q r = true <-> Rdist3 (RP3 q) (RP3 p) > Rdist3 (RP3 r) (RP3 p)).
Proof.
  intros f P e B p q r He HB Hp Hq Hr.
  assert (B0 : (0 <= B)%Z) by exact (grid_nonneg _ _ _ (Hp D3X)).
  assert (D : forall a : Point3 (num (IEEE f P)), Pgrid3 e B a -> exists s, GS (v3_dot (p3_sub a p) (p3_sub a p)) s (3 * (4 * (B * B))) (e + e) /\ Rdist3 (RP3 a) (RP3 p) = sqrt s /\ 0 <= s).
  { intros a Ha. pose proof (GS_leaf _ _ _ (Ha D3X)) as AX. pose proof (GS_leaf _ _ _ (Hp D3X)) as BX. pose proof (GS_leaf _ _ _ (Ha D3Y)) as AY. pose proof (GS_leaf _ _ _ (Hp D3Y)) as BY. pose proof (GS_leaf _ _ _ (Ha D3Z)) as AZ. pose proof (GS_leaf _ _ _ (Hp D3Z)) as BZ. cbn [coord3] in *. eexists. split; [unfold v3_dot, p3_sub, v3_new; cbn [p3x p3y p3z v3x v3y v3z]; eapply GS_le; [gs_t; nia|]; lia|]. split; [unfold Rdist3, RP3; cbn [p3x p3y p3z v3x v3y v3z]; f_equal; ring|]. repeat apply Rplus_le_le_0_compat; apply Rle_0_sqr. }
  destruct (D q Hq) as (s1 & G1 & -> & S1). destruct (D r Hr) as (s2 & G2 & -> & S2).
  assert (N : forall a b, 0 <= a -> 0 <= b -> (a < b <-> sqrt a < sqrt b)) by (intros a b Pa Pb; split; [intros; apply sqrt_lt_1; assumption | intros; now apply sqrt_lt_0_alt]).
  split; [rewrite <- N by assumption | unfold Rgt; rewrite <- N by assumption]; eapply GS_lt; eassumption.
Qed.
Lemma C73_length_exact_2d_pf : forall (f : format) (P : platform f) (e B n : Z) (v : Vector2 (num (IEEE f P))), (-30 <= e <= 30)%Z -> (2 * (B * B) < 2 ^ prec f)%Z -> Vgrid2 e B v ->
  Rnorm2 (RV2 v) = IZR n * bpow radix2 e -> RealVal (v2_length v) (Rnorm2 (RV2 v)).
Proof.
  intros f P e B n v He HB Hv E. assert (B0 : (0 <= B)%Z) by (destruct (Hv D2X) as [_ (k & _ & L)]; lia).
  assert (D : GS (v2_dot v v) (Rdot2 (RV2 v) (RV2 v)) (2 * (B * B)) (e + e)).
  { assert (Ha : Vgrid2 e B v) by exact Hv. assert (Hb : Vgrid2 e B v) by exact Hv. pose proof (GS_leaf _ _ _ (Ha D2X)) as AX. pose proof (GS_leaf _ _ _ (Hb D2X)) as BX. pose proof (GS_leaf _ _ _ (Ha D2Y)) as AY. pose proof (GS_leaf _ _ _ (Hb D2Y)) as BY. cbn [vcoord2] in *. unfold v2_dot. eapply GS_le; [gs_t|]. lia. }
  apply RealVal_tx. unfold v2_length. rewrite tx_sqrt. destruct D as (D & k & K1 & K2). rewrite D.
  assert (S : Rdot2 (RV2 v) (RV2 v) = Rnorm2 (RV2 v) * Rnorm2 (RV2 v)).
  { unfold Rnorm2. rewrite sqrt_sqrt; [unfold Rdot2; ring|]. clear. pose proof (pow2_ge_0 (v2x (RV2 v))). pose proof (pow2_ge_0 (v2y (RV2 v))). lra. }
  rewrite xsqrt_fin, S, sqrt_square by (try rewrite <- S; first [apply sqrt_pos | rewrite S; apply Rmult_le_pos; apply sqrt_pos]). rewrite E. apply grid_fix; [|lia].
  assert (Q : (n * n = k)%Z).
  { apply eq_IZR. rewrite mult_IZR. rewrite S, E, bpow_plus in K1. pose proof (bpow_gt_0 radix2 e). apply Rmult_eq_reg_r with (bpow radix2 e * bpow radix2 e); [lra | nra]. }
  assert (Z.abs n * Z.abs n <= 2 * (B * B))%Z by (rewrite <- Z.abs_mul, Q; assumption). nia.
Qed.
Lemma C73_length_exact_3d_pf : forall (f : format) (P : platform f) (e B n : Z) (v : Vector3 (num (IEEE f P))), (-30 <= e <= 30)%Z -> (3 * (B * B) < 2 ^ prec f)%Z -> Vgrid3 e B v ->
  Rnorm3 (RV3 v) = IZR n * bpow radix2 e -> RealVal (v3_length v) (Rnorm3 (RV3 v)).
Proof.
  intros f P e B n v He HB Hv E. assert (B0 : (0 <= B)%Z) by (destruct (Hv D3X) as [_ (k & _ & L)]; lia).
  assert (D : GS (v3_dot v v) (Rdot3 (RV3 v) (RV3 v)) (3 * (B * B)) (e + e)).
  { assert (Ha : Vgrid3 e B v) by exact Hv. assert (Hb : Vgrid3 e B v) by exact Hv. pose proof (GS_leaf _ _ _ (Ha D3X)) as AX. pose proof (GS_leaf _ _ _ (Hb D3X)) as BX. pose proof (GS_leaf _ _ _ (Ha D3Y)) as AY. pose proof (GS_leaf _ _ _ (Hb D3Y)) as BY. pose proof (GS_leaf _ _ _ (Ha D3Z)) as AZ. pose proof (GS_leaf _ _ _ (Hb D3Z)) as BZ. cbn [vcoord3] in *. unfold v3_dot. eapply GS_le; [gs_t|]. lia. }
  apply RealVal_tx. unfold v3_length. rewrite tx_sqrt. destruct D as (D & k & K1 & K2). rewrite D.
  assert (S : Rdot3 (RV3 v) (RV3 v) = Rnorm3 (RV3 v) * Rnorm3 (RV3 v)).
  { unfold Rnorm3. rewrite sqrt_sqrt; [unfold Rdot3; ring|]. clear. pose proof (pow2_ge_0 (v3x (RV3 v))). pose proof (pow2_ge_0 (v3y (RV3 v))). pose proof (pow2_ge_0 (v3z (RV3 v))). lra. }
  rewrite xsqrt_fin, S, sqrt_square by (try rewrite <- S; first [apply sqrt_pos | rewrite S; apply Rmult_le_pos; apply sqrt_pos]). rewrite E. apply grid_fix; [|lia].
  assert (Q : (n * n = k)%Z).
  { apply eq_IZR. rewrite mult_IZR. rewrite S, E, bpow_plus in K1. pose proof (bpow_gt_0 radix2 e). apply Rmult_eq_reg_r with (bpow radix2 e * bpow radix2 e); [lra | nra]. }
  assert (Z.abs n * Z.abs n <= 3 * (B * B))%Z by (rewrite <- Z.abs_mul, Q; assumption). nia.
Qed.
Lemma C73_cross_exact_pf : forall (f : format) (P : platform f) (e B : Z) (v w : Vector3 (num (IEEE f P))), (-30 <= e <= 30)%Z -> (2 * (B * B) < 2 ^ prec f)%Z -> Vgrid3 e B v -> Vgrid3 e B w -> forall d,
  let x i := vcoord3 (RV3 v) i in let y i := vcoord3 (RV3 w) i in
  let (i, j) := match d with D3X => (D3Y, D3Z) | D3Y => (D3Z, D3X) | D3Z => (D3X, D3Y) end in
  RealVal (vcoord3 (v3_cross v w) d) (x i * y j - x j * y i).
Proof.
  intros f P e B v w He HB Hv Hw d. pose proof (GS_leaf _ _ _ (Hv D3X)) as VX. pose proof (GS_leaf _ _ _ (Hw D3X)) as WX. pose proof (GS_leaf _ _ _ (Hv D3Y)) as VY. pose proof (GS_leaf _ _ _ (Hw D3Y)) as WY. pose proof (GS_leaf _ _ _ (Hv D3Z)) as VZ. pose proof (GS_leaf _ _ _ (Hw D3Z)) as WZ. cbn [vcoord3] in *.
  destruct d; cbv zeta beta iota; cbn [vcoord3 v3_cross v3_new v3x v3y v3z RV3]; (eapply GS_val; [gs_t; nia | ring]).
Qed.
Lemma C73_ray_at_exact_2d_pf : forall (f : format) (P : platform f) (e g O B T : Z) (r : Ray2 (num (IEEE f P))) (t : num (IEEE f P)), (-30 <= e <= 30)%Z -> (-30 <= g <= 30)%Z -> (O + B * T < 2 ^ prec f)%Z ->
  Pgrid2 (e + g) O (r2_origin r) -> Vgrid2 e B (r2_direction r) -> on_grid g T t -> forall d,
  RealVal (coord2 (r2_at r t) d) (coord2 (Rat2 (mkRay2 (RP2 (r2_origin r)) (RV2 (r2_direction r))) (real_of t)) d).
Proof.
  intros f P e g O B T [o u] t He Hg HB Ho Hv Ht d. cbn [r2_origin r2_direction] in *. specialize (Ho d). specialize (Hv d).
  assert (O0 : (0 <= O)%Z) by exact (grid_nonneg _ _ _ Ho). apply GS_leaf in Ho, Hv, Ht.
  destruct d; unfold r2_at, p2_add, v2_mul, p2_new, v2_new, Rat2, RP2, RV2; cbn [coord2 vcoord2 p2x p2y v2x v2y r2_origin r2_direction] in *; (eapply GS_val; [gs_t | ring]).
Qed.
Lemma C73_ray_at_exact_3d_pf : forall (f : format) (P : platform f) (e g O B T : Z) (r : Ray3 (num (IEEE f P))) (t : num (IEEE f P)), (-30 <= e <= 30)%Z -> (-30 <= g <= 30)%Z -> (O + B * T < 2 ^ prec f)%Z ->
  Pgrid3 (e + g) O (r3_origin r) -> Vgrid3 e B (r3_direction r) -> on_grid g T t -> forall d,
  RealVal (coord3 (r3_at r t) d) (coord3 (Rat3 (mkRay3 (RP3 (r3_origin r)) (RV3 (r3_direction r))) (real_of t)) d).
Proof.
  intros f P e g O B T [o u] t He Hg HB Ho Hv Ht d. cbn [r3_origin r3_direction] in *. specialize (Ho d). specialize (Hv d).
  assert (O0 : (0 <= O)%Z) by exact (grid_nonneg _ _ _ Ho). apply GS_leaf in Ho, Hv, Ht.
  destruct d; unfold r3_at, p3_add, v3_mul, p3_new, v3_new, Rat3, RP3, RV3; cbn [coord3 vcoord3 p3x p3y p3z v3x v3y v3z r3_origin r3_direction] in *; (eapply GS_val; [gs_t | ring]).
Qed.
Lemma C73_matrix_product_exact_2d_pf : forall (f : format) (P : platform f) (prof : profile) (e g B C : Z) (a b : Matrix3x3 (num (IEEE f P))), (-30 <= e <= 30)%Z -> (-30 <= g <= 30)%Z -> (3 * (B * C) < 2 ^ prec f)%Z ->
  Mgrid3 e B a -> Mgrid3 g C b -> forall r c x, (r < 3)%N -> (c < 3)%N -> m3_get prof (m3_mul a b) r c = Ret x ->
  RealVal x (mat_mul 3 (ent3 (RM3 a)) (ent3 (RM3 b)) (N.to_nat r) (N.to_nat c)).
Proof.
  intros f P prof e g B C a b He Hg HB Ha Hb r c x Hr Hc G.
  assert (N : (0 <= B * C)%Z).
  { unfold Mgrid3 in *. inversion Ha as [|? ? Ga _]. inversion Hb as [|? ? Gb _]. apply grid_nonneg in Ga, Gb. nia. }
  unfold Mgrid3, m3_comps in *. destruct a as [a0 a1 a2 a3 a4 a5 a6 a7 a8]. destruct b as [b0 b1 b2 b3 b4 b5 b6 b7 b8]. cbn [m3_0 m3_1 m3_2 m3_3 m3_4 m3_5 m3_6 m3_7 m3_8] in *. allf.
  assert (R' : r = 0%N \/ r = 1%N \/ r = 2%N) by lia. assert (C' : c = 0%N \/ c = 1%N \/ c = 2%N) by lia. destruct prof as [[] []], R' as [->|[->| ->]], C' as [->|[->| ->]]; cbn -[sadd smul] in G; injection G as <-; (cbv [mat_mul mat_apply dir2 hom2 RV2 dim2_index sum_n ent3 nth RM3 N.to_nat Pos.to_nat Pos.iter_op Nat.add Nat.mul m3_0 m3_1 m3_2 m3_3 m3_4 m3_5 m3_6 m3_7 m3_8 v2x v2y]; eapply GS_val; [gs_t | ring]).
Qed.
Lemma C73_matrix_product_exact_3d_pf : forall (f : format) (P : platform f) (prof : profile) (e g B C : Z) (a b : Matrix4x4 (num (IEEE f P))), (-30 <= e <= 30)%Z -> (-30 <= g <= 30)%Z -> (4 * (B * C) < 2 ^ prec f)%Z ->
  Mgrid4 e B a -> Mgrid4 g C b -> forall r c x, (r < 4)%N -> (c < 4)%N -> m4_get prof (m4_mul a b) r c = Ret x ->
  RealVal x (mat_mul 4 (ent4 (RM4 a)) (ent4 (RM4 b)) (N.to_nat r) (N.to_nat c)).
Proof.
  intros f P prof e g B C a b He Hg HB Ha Hb r c x Hr Hc G.
  assert (N : (0 <= B * C)%Z).
  { unfold Mgrid4 in *. inversion Ha as [|? ? Ga _]. inversion Hb as [|? ? Gb _]. apply grid_nonneg in Ga, Gb. nia. }
  unfold Mgrid4, m4_comps in *. destruct a as [a0 a1 a2 a3 a4 a5 a6 a7 a8 a9 a10 a11 a12 a13 a14 a15]. destruct b as [b0 b1 b2 b3 b4 b5 b6 b7 b8 b9 b10 b11 b12 b13 b14 b15]. cbn [m4_0 m4_1 m4_2 m4_3 m4_4 m4_5 m4_6 m4_7 m4_8 m4_9 m4_10 m4_11 m4_12 m4_13 m4_14 m4_15] in *. allf.
  assert (R' : r = 0%N \/ r = 1%N \/ r = 2%N \/ r = 3%N) by lia. assert (C' : c = 0%N \/ c = 1%N \/ c = 2%N \/ c = 3%N) by lia. destruct prof as [[] []], R' as [->|[->|[->| ->]]], C' as [->|[->|[->| ->]]]; cbn -[sadd smul] in G; injection G as <-; (cbv [mat_mul mat_apply dir3 hom3 RV3 dim3_index sum_n ent4 nth RM4 N.to_nat Pos.to_nat Pos.iter_op Nat.add Nat.mul m4_0 m4_1 m4_2 m4_3 m4_4 m4_5 m4_6 m4_7 m4_8 m4_9 m4_10 m4_11 m4_12 m4_13 m4_14 m4_15 v3x v3y v3z]; eapply GS_val; [gs_t | ring]).
Qed.
Lemma C73_matrix_vector_exact_2d_pf : forall (f : format) (P : platform f) (e g B C : Z) (m : Matrix3x3 (num (IEEE f P))) (v : Vector2 (num (IEEE f P))), (-30 <= e <= 30)%Z -> (-30 <= g <= 30)%Z -> (2 * (C * B) < 2 ^ prec f)%Z ->
  Mgrid3 g C m -> Vgrid2 e B v -> forall d, RealVal (vcoord2 (m3_mul_vector m v) d) (mat_apply 3 (ent3 (RM3 m)) (dir2 (RV2 v)) (dim2_index d)).
Proof.
  intros f P e g B C m v He Hg HB Hm Hv d.
  assert (N : (0 <= C * B)%Z).
  { unfold Mgrid3 in *. inversion Hm as [|? ? Ga _]. apply grid_nonneg in Ga. pose proof (grid_nonneg _ _ _ (Hv D2X)). nia. }
  assert (Hw : Vgrid2 e B v) by exact Hv. destruct m as [m0 m1 m2 m3 m4 m5 m6 m7 m8]. destruct v as [v1 v2]. pose proof (GS_leaf _ _ _ (Hv D2X)) as VX. pose proof (GS_leaf _ _ _ (Hw D2X)) as WX. pose proof (GS_leaf _ _ _ (Hv D2Y)) as VY. pose proof (GS_leaf _ _ _ (Hw D2Y)) as WY. cbn [vcoord2] in *. unfold Mgrid3, m3_comps in *. cbn [m3_0 m3_1 m3_2 m3_3 m3_4 m3_5 m3_6 m3_7 m3_8 p2x p2y v2x v2y] in *. allf.
  destruct d; (unfold m3_mul_vector, v2_new; cbn [vcoord2 p2x p2y v2x v2y m3_0 m3_1 m3_2 m3_3 m3_4 m3_5 m3_6 m3_7 m3_8]; eapply GS_val; [gs_t | cbv [mat_mul mat_apply dir2 hom2 RV2 dim2_index sum_n ent3 nth RM3 N.to_nat Pos.to_nat Pos.iter_op Nat.add Nat.mul m3_0 m3_1 m3_2 m3_3 m3_4 m3_5 m3_6 m3_7 m3_8 v2x v2y]; ring]).
Qed.
Lemma C73_matrix_vector_exact_3d_pf : forall (f : format) (P : platform f) (e g B C : Z) (m : Matrix4x4 (num (IEEE f P))) (v : Vector3 (num (IEEE f P))), (-30 <= e <= 30)%Z -> (-30 <= g <= 30)%Z -> (3 * (C * B) < 2 ^ prec f)%Z ->
  Mgrid4 g C m -> Vgrid3 e B v -> forall d, RealVal (vcoord3 (m4_mul_vector m v) d) (mat_apply 4 (ent4 (RM4 m)) (dir3 (RV3 v)) (dim3_index d)).
Proof.
  intros f P e g B C m v He Hg HB Hm Hv d.
  assert (N : (0 <= C * B)%Z).
  { unfold Mgrid4 in *. inversion Hm as [|? ? Ga _]. apply grid_nonneg in Ga. pose proof (grid_nonneg _ _ _ (Hv D3X)). nia. }
  assert (Hw : Vgrid3 e B v) by exact Hv. destruct m as [m0 m1 m2 m3 m4 m5 m6 m7 m8 m9 m10 m11 m12 m13 m14 m15]. destruct v as [v1 v2 v3]. pose proof (GS_leaf _ _ _ (Hv D3X)) as VX. pose proof (GS_leaf _ _ _ (Hw D3X)) as WX. pose proof (GS_leaf _ _ _ (Hv D3Y)) as VY. pose proof (GS_leaf _ _ _ (Hw D3Y)) as WY. pose proof (GS_leaf _ _ _ (Hv D3Z)) as VZ. pose proof (GS_leaf _ _ _ (Hw D3Z)) as WZ. cbn [vcoord3] in *. unfold Mgrid4, m4_comps in *. cbn [m4_0 m4_1 m4_2 m4_3 m4_4 m4_5 m4_6 m4_7 m4_8 m4_9 m4_10 m4_11 m4_12 m4_13 m4_14 m4_15 p3x p3y p3z v3x v3y v3z] in *. allf.
  destruct d; (unfold m4_mul_vector, v3_new; cbn [vcoord3 p3x p3y p3z v3x v3y v3z m4_0 m4_1 m4_2 m4_3 m4_4 m4_5 m4_6 m4_7 m4_8 m4_9 m4_10 m4_11 m4_12 m4_13 m4_14 m4_15]; eapply GS_val; [gs_t | cbv [mat_mul mat_apply dir3 hom3 RV3 dim3_index sum_n ent4 nth RM4 N.to_nat Pos.to_nat Pos.iter_op Nat.add Nat.mul m4_0 m4_1 m4_2 m4_3 m4_4 m4_5 m4_6 m4_7 m4_8 m4_9 m4_10 m4_11 m4_12 m4_13 m4_14 m4_15 v3x v3y v3z]; ring]).
Qed.
Lemma C73_affine_point_exact_2d_pf : forall (f : format) (P : platform f) (e g B C T : Z) (m : Matrix3x3 (num (IEEE f P))) (p : Point2 (num (IEEE f P))), (-30 <= e <= 30)%Z -> (-30 <= g <= 30)%Z -> (2 * (C * B) + T < 2 ^ prec f)%Z ->
  Agrid3 g C (g + e) T m -> Pgrid2 e B p -> forall d, RealVal (coord2 (m3_mul_point m p) d) (coord2 (img2 (RM3 m) (RP2 p)) d).
Proof.
  intros f P e g B C T m p He Hg HB (Hm & Ht & Haf) Hp d.
  assert (Fp : Finite2 p) by (intros i; apply Hp).
  assert (N : (0 <= C * B)%Z /\ (0 <= T)%Z).
  { inversion Hm as [|? ? Ga _]. apply grid_nonneg in Ga. inversion Ht as [|? ? Gb _]. apply grid_nonneg in Gb. pose proof (grid_nonneg _ _ _ (Hp D2X)). nia. }
  pose proof (Affine3_w m p Haf Fp) as W. assert (Ha : Pgrid2 e B p) by exact Hp. pose proof (GS_leaf _ _ _ (Ha D2X)) as AX. pose proof (GS_leaf _ _ _ (Hp D2X)) as BX. pose proof (GS_leaf _ _ _ (Ha D2Y)) as AY. pose proof (GS_leaf _ _ _ (Hp D2Y)) as BY. cbn [coord2] in *. allf.
  assert (Af : affine2 (RM3 m)) by (apply affine_real2; assumption).
  destruct d; (rewrite img2_affine by assumption; cbn [coord2 m3_mul_point p2_new p2x p2y v2x v2y] in *; eapply GS_val; [eapply GS_div1; [gs_t | exact W] | unfold RP2, RM3; cbn; ring]).
Qed.
Lemma C73_affine_point_exact_3d_pf : forall (f : format) (P : platform f) (e g B C T : Z) (m : Matrix4x4 (num (IEEE f P))) (p : Point3 (num (IEEE f P))), (-30 <= e <= 30)%Z -> (-30 <= g <= 30)%Z -> (3 * (C * B) + T < 2 ^ prec f)%Z ->
  Agrid4 g C (g + e) T m -> Pgrid3 e B p -> forall d, RealVal (coord3 (m4_mul_point m p) d) (coord3 (img3 (RM4 m) (RP3 p)) d).
Proof.
  intros f P e g B C T m p He Hg HB (Hm & Ht & Haf) Hp d.
  assert (Fp : Finite3 p) by (intros i; apply Hp).
  assert (N : (0 <= C * B)%Z /\ (0 <= T)%Z).
  { inversion Hm as [|? ? Ga _]. apply grid_nonneg in Ga. inversion Ht as [|? ? Gb _]. apply grid_nonneg in Gb. pose proof (grid_nonneg _ _ _ (Hp D3X)). nia. }
  pose proof (Affine4_w m p Haf Fp) as W. assert (Ha : Pgrid3 e B p) by exact Hp. pose proof (GS_leaf _ _ _ (Ha D3X)) as AX. pose proof (GS_leaf _ _ _ (Hp D3X)) as BX. pose proof (GS_leaf _ _ _ (Ha D3Y)) as AY. pose proof (GS_leaf _ _ _ (Hp D3Y)) as BY. pose proof (GS_leaf _ _ _ (Ha D3Z)) as AZ. pose proof (GS_leaf _ _ _ (Hp D3Z)) as BZ. cbn [coord3] in *. allf.
  assert (Af : affine3 (RM4 m)) by (apply affine_real3; assumption).
  destruct d; (rewrite img3_affine by assumption; cbn [coord3 m4_mul_point p3_new p3x p3y p3z v3x v3y v3z] in *; eapply GS_val; [eapply GS_div1; [gs_t | exact W] | unfold RP3, RM4; cbn; ring]).
Qed.
Lemma C73_translate_round_trip_2d_pf : forall (f : format) (P : platform f) (e B : Z) (v : Vector2 (num (IEEE f P))) (p : Point2 (num (IEEE f P))), (-30 <= e <= 30)%Z -> (2 * B < 2 ^ prec f)%Z -> Vgrid2 e B v -> Pgrid2 e B p ->
  let t := t2_translate v in PEq2 (t2_transform_point (t2_inverse t) (t2_transform_point t p)) p /\ PEq2 (t2_transform_point t (t2_transform_point (t2_inverse t) p)) p.
Proof.
  intros f P e B v p He HB Hv Hp. cbv zeta. remember (t2_translate v) as t eqn:Et.
  assert (Fv : VFinite2 v) by (intros i; apply Hv). assert (Fp : Finite2 p) by (intros i; apply Hp).
  assert (G1 : forall d, GS (coord2 (p2_add p v) d) (real_of (coord2 p d) + real_of (vcoord2 v d)) (B + B) e).
  { intros d. specialize (Hp d). specialize (Hv d). apply GS_leaf in Hp, Hv. destruct d; unfold p2_add, p2_new; cbn [coord2 vcoord2 p2x p2y v2x v2y] in *; gs_t. }
  assert (G2 : forall d, GS (coord2 (p2_sub_v p v) d) (real_of (coord2 p d) - real_of (vcoord2 v d)) (B + B) e).
  { intros d. specialize (Hp d). specialize (Hv d). apply GS_leaf in Hp, Hv. destruct d; unfold p2_sub_v, p2_new; cbn [coord2 vcoord2 p2x p2y v2x v2y] in *; gs_t. }
  assert (X1 : forall d, tx (coord2 (t2_transform_point t p) d) = Fin (real_of (coord2 p d) + real_of (vcoord2 v d))).
  { intros d. destruct (proj1 (C40_translate_2d_pf _ v p v) Fv Fp) as [E _]. specialize (E d). rewrite <- Et in E. apply Eqs_tx in E. rewrite (proj1 E). apply G1. }
  assert (X2 : forall d, tx (coord2 (t2_transform_point (t2_inverse t) p) d) = Fin (real_of (coord2 p d) - real_of (vcoord2 v d))).
  { intros d. destruct (proj1 (C40_translate_2d_pf _ v p v) Fv Fp) as [_ E]. specialize (E d). rewrite <- Et in E. apply Eqs_tx in E. rewrite (proj1 E). apply G2. }
  assert (F1 : Finite2 (t2_transform_point t p)) by (intros i; apply Finite_tx; eexists; apply X1).
  assert (F2 : Finite2 (t2_transform_point (t2_inverse t) p)) by (intros i; apply Finite_tx; eexists; apply X2).
  split.
  - destruct (proj1 (C40_translate_2d_pf _ v (t2_transform_point t p) v) Fv F1) as [_ E]. intros d. specialize (E d). apply Eqs_tx in E. apply Eqs_tx.
    rewrite <- Et in E. rewrite (proj1 E). pose proof (X1 d) as Y. pose proof (Finite_real _ (Fv d)) as V. pose proof (Finite_real _ (Fp d)) as Q. specialize (Hp d). apply GS_leaf in Hp. destruct Hp as (_ & k & K1 & K2).
    split; [|rewrite (proj1 E) in E; clear - E; tauto].
    rewrite Q. destruct d; unfold p2_sub_v, p2_new; cbn [coord2 vcoord2 p2x p2y v2x v2y] in *; (rewrite tx_sub, Y, V; cbn [xsub xadd xneg]; replace (_ + - _) with (IZR k * bpow radix2 e) by (rewrite K1; ring); rewrite K1; apply grid_fix; lia).
  - destruct (proj1 (C40_translate_2d_pf _ v (t2_transform_point (t2_inverse t) p) v) Fv F2) as [E _]. intros d. specialize (E d). apply Eqs_tx in E. apply Eqs_tx.
    rewrite <- Et in E. rewrite (proj1 E). pose proof (X2 d) as Y. pose proof (Finite_real _ (Fv d)) as V. pose proof (Finite_real _ (Fp d)) as Q. specialize (Hp d). apply GS_leaf in Hp. destruct Hp as (_ & k & K1 & K2).
    split; [|rewrite (proj1 E) in E; clear - E; tauto].
    rewrite Q. destruct d; unfold p2_add, p2_new; cbn [coord2 vcoord2 p2x p2y v2x v2y] in *; (rewrite tx_add, Y, V; cbn [xsub xadd xneg]; replace (_ + _) with (IZR k * bpow radix2 e) by (rewrite K1; ring); rewrite K1; apply grid_fix; lia).
Qed.
Lemma C73_translate_round_trip_3d_pf : forall (f : format) (P : platform f) (e B : Z) (v : Vector3 (num (IEEE f P))) (p : Point3 (num (IEEE f P))), (-30 <= e <= 30)%Z -> (2 * B < 2 ^ prec f)%Z -> Vgrid3 e B v -> Pgrid3 e B p ->
  let t := t3_translate v in PEq3 (t3_transform_point (t3_inverse t) (t3_transform_point t p)) p /\ PEq3 (t3_transform_point t (t3_transform_point (t3_inverse t) p)) p.
Proof.
  intros f P e B v p He HB Hv Hp. cbv zeta. remember (t3_translate v) as t eqn:Et.
  assert (Fv : VFinite3 v) by (intros i; apply Hv). assert (Fp : Finite3 p) by (intros i; apply Hp).
  assert (G1 : forall d, GS (coord3 (p3_add p v) d) (real_of (coord3 p d) + real_of (vcoord3 v d)) (B + B) e).
  { intros d. specialize (Hp d). specialize (Hv d). apply GS_leaf in Hp, Hv. destruct d; unfold p3_add, p3_new; cbn [coord3 vcoord3 p3x p3y p3z v3x v3y v3z] in *; gs_t. }
  assert (G2 : forall d, GS (coord3 (p3_sub_v p v) d) (real_of (coord3 p d) - real_of (vcoord3 v d)) (B + B) e).
  { intros d. specialize (Hp d). specialize (Hv d). apply GS_leaf in Hp, Hv. destruct d; unfold p3_sub_v, p3_new; cbn [coord3 vcoord3 p3x p3y p3z v3x v3y v3z] in *; gs_t. }
  assert (X1 : forall d, tx (coord3 (t3_transform_point t p) d) = Fin (real_of (coord3 p d) + real_of (vcoord3 v d))).
  { intros d. destruct (proj1 (C40_translate_3d_pf _ v p v) Fv Fp) as [E _]. specialize (E d). rewrite <- Et in E. apply Eqs_tx in E. rewrite (proj1 E). apply G1. }
  assert (X2 : forall d, tx (coord3 (t3_transform_point (t3_inverse t) p) d) = Fin (real_of (coord3 p d) - real_of (vcoord3 v d))).
  { intros d. destruct (proj1 (C40_translate_3d_pf _ v p v) Fv Fp) as [_ E]. specialize (E d). rewrite <- Et in E. apply Eqs_tx in E. rewrite (proj1 E). apply G2. }
  assert (F1 : Finite3 (t3_transform_point t p)) by (intros i; apply Finite_tx; eexists; apply X1).
  assert (F2 : Finite3 (t3_transform_point (t3_inverse t) p)) by (intros i; apply Finite_tx; eexists; apply X2).
  split.
  - destruct (proj1 (C40_translate_3d_pf _ v (t3_transform_point t p) v) Fv F1) as [_ E]. intros d. specialize (E d). apply Eqs_tx in E. apply Eqs_tx.
    rewrite <- Et in E. rewrite (proj1 E). pose proof (X1 d) as Y. pose proof (Finite_real _ (Fv d)) as V. pose proof (Finite_real _ (Fp d)) as Q. specialize (Hp d). apply GS_leaf in Hp. destruct Hp as (_ & k & K1 & K2).
    split; [|rewrite (proj1 E) in E; clear - E; tauto].
    rewrite Q. destruct d; unfold p3_sub_v, p3_new; cbn [coord3 vcoord3 p3x p3y p3z v3x v3y v3z] in *; (rewrite tx_sub, Y, V; cbn [xsub xadd xneg]; replace (_ + - _) with (IZR k * bpow radix2 e) by (rewrite K1; ring); rewrite K1; apply grid_fix; lia).
  - destruct (proj1 (C40_translate_3d_pf _ v (t3_transform_point (t3_inverse t) p) v) Fv F2) as [E _]. intros d. specialize (E d). apply Eqs_tx in E. apply Eqs_tx.
    rewrite <- Et in E. rewrite (proj1 E). pose proof (X2 d) as Y. pose proof (Finite_real _ (Fv d)) as V. pose proof (Finite_real _ (Fp d)) as Q. specialize (Hp d). apply GS_leaf in Hp. destruct Hp as (_ & k & K1 & K2).
    split; [|rewrite (proj1 E) in E; clear - E; tauto].
    rewrite Q. destruct d; unfold p3_add, p3_new; cbn [coord3 vcoord3 p3x p3y p3z v3x v3y v3z] in *; (rewrite tx_add, Y, V; cbn [xsub xadd xneg]; replace (_ + _) with (IZR k * bpow radix2 e) by (rewrite K1; ring); rewrite K1; apply grid_fix; lia).
Qed.
Lemma C73_box_extent_center_exact_2d_pf : forall (f : format) (P : platform f) (e B : Z) (b : BoundingBox2 (num (IEEE f P))), (-30 <= e <= 30)%Z -> (4 * B < 2 ^ prec f)%Z -> Bgrid2 e B b -> forall d,
  let lo := real_of (coord2 (bb2_min b) d) in let hi := real_of (coord2 (bb2_max b) d) in
  RealVal (bb2_extent b d) (hi - lo) /\ RealVal (vcoord2 (bb2_diagonal b) d) (hi - lo) /\ RealVal (coord2 (bb2_center b) d) ((lo + hi) / 2).
Proof.
  intros f P e B b He HB [Hl Hh] d. cbv zeta. specialize (Hl d). specialize (Hh d). assert (B0 := grid_nonneg _ _ _ Hl). apply GS_leaf in Hl, Hh.
  destruct d; unfold bb2_extent, bb2_width, bb2_height,  bb2_center, bb2_diagonal, p2_sub, p2_add, v2_mul, p2_new, v2_new; cbn [coord2 vcoord2 p2x p2y v2x v2y] in *; conjs;
    first [solve [eapply GS_val; [gs_t | ring]] | (eapply GS_val; [eapply GS_add; [eapply (GS_finer _ _ _ _ 1); [eassumption | lia | reflexivity] | gs_t | lia | lia] | field])].
Qed.
Lemma C73_box_extent_center_exact_3d_pf : forall (f : format) (P : platform f) (e B : Z) (b : BoundingBox3 (num (IEEE f P))), (-30 <= e <= 30)%Z -> (4 * B < 2 ^ prec f)%Z -> Bgrid3 e B b -> forall d,
  let lo := real_of (coord3 (bb3_min b) d) in let hi := real_of (coord3 (bb3_max b) d) in
  RealVal (bb3_extent b d) (hi - lo) /\ RealVal (vcoord3 (bb3_diagonal b) d) (hi - lo) /\ RealVal (coord3 (bb3_center b) d) ((lo + hi) / 2).
Proof.
  intros f P e B b He HB [Hl Hh] d. cbv zeta. specialize (Hl d). specialize (Hh d). assert (B0 := grid_nonneg _ _ _ Hl). apply GS_leaf in Hl, Hh.
  destruct d; unfold bb3_extent, bb3_width, bb3_height, bb3_depth, bb3_center, bb3_diagonal, p3_sub, p3_add, v3_mul, p3_new, v3_new; cbn [coord3 vcoord3 p3x p3y p3z v3x v3y v3z] in *; conjs;
    first [solve [eapply GS_val; [gs_t | ring]] | (eapply GS_val; [eapply GS_add; [eapply (GS_finer _ _ _ _ 1); [eassumption | lia | reflexivity] | gs_t | lia | lia] | field])].
Qed.
Lemma C73_area_exact_2d_pf : forall (f : format) (P : platform f) (e B : Z) (b : BoundingBox2 (num (IEEE f P))), (-30 <= e <= 30)%Z -> (4 * (B * B) < 2 ^ prec f)%Z -> Bgrid2 e B b ->
  let d i := real_of (coord2 (bb2_max b) i) - real_of (coord2 (bb2_min b) i) in RealVal (bb2_area b) (d D2X * d D2Y).
Proof.
  intros f P e B b He HB [Hl Hh]. cbv zeta. pose proof (Hl D2X) as LX. pose proof (Hl D2Y) as LY. pose proof (Hh D2X) as HX. pose proof (Hh D2Y) as HY.
  assert (B0 := grid_nonneg _ _ _ LX). apply GS_leaf in LX, LY, HX, HY. cbn [coord2] in *.
  unfold bb2_area, bb2_size, bb2_width, bb2_height. eapply GS_val; [gs_t; nia | ring].
Qed.
Lemma C73_volume_surface_exact_3d_pf : forall (f : format) (P : platform f) (e B : Z) (b : BoundingBox3 (num (IEEE f P))), (-30 <= e <= 30)%Z -> Bgrid3 e B b ->
  let d i := real_of (coord3 (bb3_max b) i) - real_of (coord3 (bb3_min b) i) in
  ((8 * (B * B * B) < 2 ^ prec f)%Z -> RealVal (bb3_volume b) (d D3X * d D3Y * d D3Z)) /\
  ((24 * (B * B) < 2 ^ prec f)%Z -> RealVal (bb3_surface_area b) (2 * (d D3X * d D3Y + d D3X * d D3Z + d D3Y * d D3Z))).
Proof.
  intros f P e B b He [Hl Hh]. cbv zeta. pose proof (Hl D3X) as LX. pose proof (Hl D3Y) as LY. pose proof (Hh D3X) as HX. pose proof (Hh D3Y) as HY. pose proof (Hl D3Z) as LZ. pose proof (Hh D3Z) as HZ.
  assert (B0 := grid_nonneg _ _ _ LX). apply GS_leaf in LX, LY, HX, HY, LZ, HZ. cbn [coord3] in *.
  assert (K0 : (4 < 2 ^ prec f)%Z) by (destruct f; reflexivity).
  destruct (Z.eq_dec B 0) as [->|BN].
  - split; intros HB; unfold bb3_volume, bb3_surface_area, bb3_diagonal, bb3_size, bb3_width, bb3_height, bb3_depth, p3_sub, v3_new; cbn [v3x v3y v3z]; (eapply GS_val; [gs_t | ring]).
  - assert (B1 : (1 <= B)%Z) by lia. assert (B2 : (B <= B * B)%Z) by nia. assert (B3 : (B * B <= B * B * B)%Z) by nia.
    split; intros HB; unfold bb3_volume, bb3_surface_area, bb3_diagonal, bb3_size, bb3_width, bb3_height, bb3_depth, p3_sub, v3_new; cbn [v3x v3y v3z]; (eapply GS_val; [gs_t | ring]).
Qed.
