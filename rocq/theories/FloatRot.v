(** Proofs: rotations in floating point (C78). *)
From Coq Require Import Bool NArith ZArith Reals List Lra Lia.
From Flocq Require Import Core.Zaux Core.Raux Core.Defs Core.Generic_fmt Core.Float_prop Core.FLT IEEE754.BinarySingleNaN.
From Verif Require Import Scalar Types Vector2 Vector3 Point2 Point3 Ray BoundingBox2 BoundingBox3 Transform2 Transform3 Float
  XReal OrdLaws Arith SpecOrder SpecStruct SpecFloat SpecReal SpecErr SpecRot FloatX XArith FloatLaws FloatTrans ExactBase ErrBase FloatErr FloatTri ExactRot ExVals.
Local Open Scope R_scope.
Definition Nr {A : arith} (x : num A) (q e : R) : Prop := Finite x /\ Rabs (real_of x - q) <= e.
Definition Zr {A : arith} (x : num A) : Prop := Finite x /\ real_of x = 0.
Lemma Zr_0 {A : arith} : Zr (szero : num A).
Proof. apply Finite_intro. apply tx_0. Qed.
Lemma Nr_0 {A : arith} e : 0 <= e -> Nr (szero : num A) 0 e.
Proof. intros H. destruct (Zr_0 (A:=A)) as [F V]. split; [assumption|]. now rewrite V, Rminus_0_r, Rabs_R0. Qed.
Lemma Nr_1 {A : arith} e : 0 <= e -> Nr (sone : num A) 1 e.
Proof. intros H. destruct (real_of_1 (A:=A)) as [F V]. split; [assumption|]. now rewrite V, Rminus_diag_eq, Rabs_R0. Qed.
Lemma Nr_neg {A : arith} (x : num A) q e : Nr x q e -> Nr (sneg x) (- q) e.
Proof. intros [F E]. destruct (real_of_neg x F) as [F' V]. split; [assumption|]. rewrite V. replace (- real_of x - - q) with (- (real_of x - q)) by ring. now rewrite Rabs_Ropp. Qed.
Lemma Nr_le {A : arith} (x : num A) q e e' : Nr x q e -> e <= e' -> Nr x q e'.
Proof. intros [F E] L. split; [assumption | lra]. Qed.
Lemma Nr_eq {A : arith} (x : num A) q q' e : Nr x q e -> q = q' -> Nr x q' e.
Proof. now intros H <-. Qed.
Lemma prod_le (a b c d : R) : 0 <= a -> 0 <= c -> a <= b -> c <= d -> a * c <= b * d.
Proof. intros. now apply Rmult_le_compat. Qed.
(* products and sums of approximations, small enough not to overflow *)
Lemma Nr_mul {A : arith} (x y : num A) r s e e' X Y Q : Nr x r e -> Nr y s e' -> Rabs (real_of x) <= X -> Rabs (real_of y) <= Y -> Rabs r <= Q -> X * Y <= 4 ->
  Nr (smul x y) (r * s) (e * Y + Q * e' + unit_roundoff A * (X * Y) + min_subnormal A / 2).
Proof.
  intros [Fx Ex] [Fy Ey] BX BY BQ B4. pose proof (Rabs_pos (real_of x)). pose proof (Rabs_pos (real_of y)). pose proof (Rabs_pos r). pose proof (Rabs_pos (real_of x - r)). pose proof (Rabs_pos (real_of y - s)).
  assert (P : Rabs (real_of x * real_of y) <= X * Y) by (rewrite Rabs_mult; apply prod_le; lra).
  assert (F : Finite (smul x y)). { rewrite Finite_tx, tx_mul, (Finite_real _ Fx), (Finite_real _ Fy). cbn [xmul]. rewrite xr_small4 by lra. eauto. }
  split; [exact F|]. destruct (err_mul _ _ F) as (_ & _ & d & f & Hd & Hf & ->). pose proof (Rabs_pos d). pose proof (Rabs_pos (real_of x * real_of y)).
  replace (real_of x * real_of y * (1 + d) + f - r * s) with (((real_of x - r) * real_of y + r * (real_of y - s)) + (real_of x * real_of y * d + f)) by ring.
  eapply Rle_trans; [apply Rabs_triang|]. eapply Rle_trans; [apply Rplus_le_compat; apply Rabs_triang|]. rewrite !Rabs_mult in *.
  assert (Rabs (real_of x - r) * Rabs (real_of y) <= e * Y) by (apply prod_le; lra). assert (Rabs r * Rabs (real_of y - s) <= Q * e') by (apply prod_le; lra).
  assert (Rabs (real_of x) * Rabs (real_of y) * Rabs d <= X * Y * unit_roundoff A) by (apply prod_le; lra). lra.
Qed.
Lemma Nr_add {A : arith} (x y : num A) r s e e' X Y : Nr x r e -> Nr y s e' -> Rabs (real_of x) <= X -> Rabs (real_of y) <= Y -> X + Y <= 4 ->
  Nr (sadd x y) (r + s) (e + e' + unit_roundoff A * (X + Y)).
Proof.
  intros [Fx Ex] [Fy Ey] BX BY B4.
  assert (P : Rabs (real_of x + real_of y) <= X + Y) by (eapply Rle_trans; [apply Rabs_triang | lra]).
  assert (F : Finite (sadd x y)). { rewrite Finite_tx, tx_add, (Finite_real _ Fx), (Finite_real _ Fy). cbn [xadd]. rewrite xr_small4 by lra. eauto. }
  split; [exact F|]. destruct (err_add _ _ F) as (_ & _ & d & Hd & ->). pose proof (Rabs_pos d). pose proof (Rabs_pos (real_of x + real_of y)).
  replace ((real_of x + real_of y) * (1 + d) - (r + s)) with (((real_of x - r) + (real_of y - s)) + (real_of x + real_of y) * d) by ring.
  eapply Rle_trans; [apply Rabs_triang|]. eapply Rle_trans; [apply Rplus_le_compat_r; apply Rabs_triang|]. rewrite Rabs_mult.
  assert (Rabs (real_of x + real_of y) * Rabs d <= (X + Y) * unit_roundoff A) by (apply prod_le; lra). lra.
Qed.
Lemma Nr_sub {A : arith} (x y : num A) r s e e' X Y : Nr x r e -> Nr y s e' -> Rabs (real_of x) <= X -> Rabs (real_of y) <= Y -> X + Y <= 4 ->
  Nr (ssub x y) (r - s) (e + e' + unit_roundoff A * (X + Y)).
Proof.
  intros Hx Hy BX BY B4. apply Nr_neg in Hy as Hy'. destruct (real_of_neg y (proj1 Hy)) as [_ V].
  assert (BY' : Rabs (real_of (sneg y)) <= Y) by (rewrite V, Rabs_Ropp; assumption). destruct (Nr_add _ _ _ _ _ _ _ _ Hx Hy' BX BY' B4) as [F E].
  destruct (real_of_eq _ _ (sub_add x y)) as [E1 E2]. split; [now apply E1|]. rewrite (E2 (proj2 E1 F)). exact E.
Qed.
Lemma Nr_abs {A : arith} (x : num A) q e : Nr x q e -> Rabs (real_of x) <= Rabs q + e.
Proof. intros [_ E]. replace (real_of x) with ((real_of x - q) + q) by ring. eapply Rle_trans; [apply Rabs_triang | lra]. Qed.
(* one row of a matrix close to a row with entries at most 1 *)
Lemma term_close (u g h m q x : R) : Rabs (m - q) <= h -> Rabs q <= 1 -> 0 <= g <= 48 / 10 * u -> 0 <= u -> h <= 1 / 32 ->
  Rabs (m * x - q * x) + g * (Rabs m * Rabs x) <= (h + 5 * u) * Rabs x.
Proof.
  intros E Q G U H. replace (m * x - q * x) with ((m - q) * x) by ring. rewrite Rabs_mult. assert (Rabs m <= 33 / 32). { replace m with ((m - q) + q) by ring. eapply Rle_trans; [apply Rabs_triang | lra]. }
  pose proof (Rabs_pos x). pose proof (Rabs_pos m). pose proof (Rabs_pos (m - q)). assert (g * Rabs m <= 48 / 10 * u * (33 / 32)) by (apply prod_le; lra).
  rewrite <- Rmult_assoc, <- Rmult_plus_distr_r. apply Rmult_le_compat_r; lra.
Qed.
Lemma row3 (u t h g r S B m0 m1 m2 q0 q1 q2 x y z : R) : 0 <= u -> 0 <= g <= 48 / 10 * u -> h <= 1 / 32 -> Rabs (m0 - q0) <= h -> Rabs (m1 - q1) <= h -> Rabs (m2 - q2) <= h ->
  Rabs q0 <= 1 -> Rabs q1 <= 1 -> Rabs q2 <= 1 -> Rabs (r - S) <= g * B + 3 * t -> S = m0 * x + m1 * y + m2 * z -> B = Rabs m0 * Rabs x + Rabs m1 * Rabs y + Rabs m2 * Rabs z ->
  Rabs (r - (q0 * x + q1 * y + q2 * z)) <= (h + 5 * u) * (Rabs x + Rabs y + Rabs z) + 3 * t.
Proof.
  intros U G H E0 E1 E2 Q0 Q1 Q2 E -> ->. pose proof (term_close u g h m0 q0 x E0 Q0 G U H). pose proof (term_close u g h m1 q1 y E1 Q1 G U H). pose proof (term_close u g h m2 q2 z E2 Q2 G U H).
  replace (r - (q0 * x + q1 * y + q2 * z)) with ((r - (m0 * x + m1 * y + m2 * z)) + ((m0 * x - q0 * x) + (m1 * y - q1 * y) + (m2 * z - q2 * z))) by ring.
  eapply Rle_trans; [apply Rabs_triang|]. eapply Rle_trans; [apply Rplus_le_compat_l; eapply Rle_trans; [apply Rabs_triang | apply Rplus_le_compat_r; apply Rabs_triang]|]. lra.
Qed.
Lemma row2 (u t h g r S B m0 m1 q0 q1 x y : R) : 0 <= u -> 0 <= t -> 0 <= g <= 48 / 10 * u -> h <= 1 / 32 -> Rabs (m0 - q0) <= h -> Rabs (m1 - q1) <= h ->
  Rabs q0 <= 1 -> Rabs q1 <= 1 -> Rabs (r - S) <= g * B + 2 * t -> S = m0 * x + m1 * y -> B = Rabs m0 * Rabs x + Rabs m1 * Rabs y ->
  Rabs (r - (q0 * x + q1 * y)) <= (h + 5 * u) * (Rabs x + Rabs y) + 3 * t.
Proof.
  intros U T G H E0 E1 Q0 Q1 E -> ->. pose proof (term_close u g h m0 q0 x E0 Q0 G U H). pose proof (term_close u g h m1 q1 y E1 Q1 G U H).
  replace (r - (q0 * x + q1 * y)) with ((r - (m0 * x + m1 * y)) + ((m0 * x - q0 * x) + (m1 * y - q1 * y))) by ring.
  eapply Rle_trans; [apply Rabs_triang|]. eapply Rle_trans; [apply Rplus_le_compat_l; apply Rabs_triang |]. lra.
Qed.
Lemma g_small (u : R) n : 0 <= u <= / 16777216 -> (n <= 4)%nat -> 0 <= (1 + u) ^ n - 1 <= 48 / 10 * u.
Proof.
  intros U N. split. { pose proof (pow_R1_Rle (1 + u) n ltac:(lra)). lra. }
  assert ((1 + u) ^ n <= (1 + u) ^ 4) by (apply Rle_pow; [lra | lia]).
  assert (0 <= u * u <= / 16777216 * u) by (split; [apply Rmult_le_pos; lra | apply Rmult_le_compat_r; lra]).
  assert (u * u * u <= / 16777216 * (u * u)) by (rewrite (Rmult_comm (/ 16777216)); apply Rmult_le_compat_l; lra).
  assert (u * u * u * u <= / 16777216 * (u * u * u)) by (rewrite (Rmult_comm (/ 16777216)); apply Rmult_le_compat_l; [|lra]; apply Rmult_le_pos; lra).
  assert (0 <= u * u * u) by (apply Rmult_le_pos; lra). lra.
Qed.
Definition Near2 {A : arith} (m : Matrix3x3 (num A)) (Q : Matrix3x3 R) (h : R) : Prop :=
  (Nr (m3_0 m) (m3_0 Q) h /\ Nr (m3_1 m) (m3_1 Q) h /\ Nr (m3_3 m) (m3_3 Q) h /\ Nr (m3_4 m) (m3_4 Q) h) /\
  (Rabs (m3_0 Q) <= 1 /\ Rabs (m3_1 Q) <= 1 /\ Rabs (m3_3 Q) <= 1 /\ Rabs (m3_4 Q) <= 1) /\
  (Zr (m3_2 m) /\ Zr (m3_5 m)) /\ Affine3x3 m.
Definition Lin2 (m : Matrix3x3 R) (v : Vector2 R) : Vector2 R := mkVector2 (m3_0 m * v2x v + m3_1 m * v2y v) (m3_3 m * v2x v + m3_4 m * v2y v).
Definition Near3 {A : arith} (m : Matrix4x4 (num A)) (Q : Matrix4x4 R) (h : R) : Prop :=
  (Nr (m4_0 m) (m4_0 Q) h /\ Nr (m4_1 m) (m4_1 Q) h /\ Nr (m4_2 m) (m4_2 Q) h /\ Nr (m4_4 m) (m4_4 Q) h /\ Nr (m4_5 m) (m4_5 Q) h /\ Nr (m4_6 m) (m4_6 Q) h /\
   Nr (m4_8 m) (m4_8 Q) h /\ Nr (m4_9 m) (m4_9 Q) h /\ Nr (m4_10 m) (m4_10 Q) h) /\
  (Rabs (m4_0 Q) <= 1 /\ Rabs (m4_1 Q) <= 1 /\ Rabs (m4_2 Q) <= 1 /\ Rabs (m4_4 Q) <= 1 /\ Rabs (m4_5 Q) <= 1 /\ Rabs (m4_6 Q) <= 1 /\
   Rabs (m4_8 Q) <= 1 /\ Rabs (m4_9 Q) <= 1 /\ Rabs (m4_10 Q) <= 1) /\
  (Zr (m4_3 m) /\ Zr (m4_7 m) /\ Zr (m4_11 m)) /\ Affine4x4 m.
Definition Lin3 (m : Matrix4x4 R) (v : Vector3 R) : Vector3 R := mkVector3 (m4_0 m * v3x v + m4_1 m * v3y v + m4_2 m * v3z v) (m4_4 m * v3x v + m4_5 m * v3y v + m4_6 m * v3z v) (m4_8 m * v3x v + m4_9 m * v3y v + m4_10 m * v3z v).
Lemma near_vec2 {A : arith} (m : Matrix3x3 (num A)) Q h (v : Vector2 (num A)) d : Near2 m Q h -> h <= 1 / 32 -> Finite (vcoord2 (m3_mul_vector m v) d) ->
  Rabs (real_of (vcoord2 (m3_mul_vector m v) d) - vcoord2 (Lin2 Q (RV2 v)) d) <= (h + 5 * unit_roundoff A) * Rsum2 (RV2 v) + 3 * min_subnormal A.
Proof.
  intros (NE & NQ & _ & _) H F. pose proof (u_pos (A:=A)) as U. pose proof (t_pos (A:=A)) as T. pose proof (C56_matrix_vector_accurate_2d_pf A m v d F) as E. cbv zeta in E.
  unfold Nr in NE. decompose [and] NE. decompose [and] NQ. clear NE NQ F. unfold Rsum2, Lin2. cbn [vcoord2 RV2 v2x v2y v3x v3y v3z m3_0 m3_1 m3_3 m3_4 m4_0 m4_1 m4_2 m4_4 m4_5 m4_6 m4_8 m4_9 m4_10] in *.
  destruct d; (eapply row2; [apply (proj1 U) | exact T | refine (g_small _ _ U _); shelve | exact H | eassumption .. | exact E | unfold mat_apply, dir2, ent3, RM3, RV2; cbn; ring | unfold mat_apply, mat_abs, dir2, ent3, RM3, RV2, absV2; cbn; ring]).
  Unshelve. all: lia.
Qed.
Lemma near_pt2 {A : arith} (m : Matrix3x3 (num A)) Q h (p : Point2 (num A)) d : Near2 m Q h -> h <= 1 / 32 -> Finite2 p -> Finite (coord2 (m3_mul_point m p) d) ->
  Rabs (real_of (coord2 (m3_mul_point m p) d) - vcoord2 (Lin2 Q (toV2 (RP2 p))) d) <= (h + 5 * unit_roundoff A) * Rsum2 (toV2 (RP2 p)) + 3 * min_subnormal A.
Proof.
  intros (NE & NQ & NZ & Af) H Fp F. pose proof (u_pos (A:=A)) as U. pose proof (t_pos (A:=A)) as T. pose proof (C56_matrix_point_accurate_2d_pf A m p d Af Fp F) as E. cbv zeta in E.
  unfold Nr in NE. unfold Zr in NZ. decompose [and] NE. decompose [and] NQ. decompose [and] NZ. clear NE NQ NZ F. unfold Rsum2, Lin2. cbn [vcoord2 coord2 toV2 RP2 p2x p2y p3x p3y p3z v2x v2y v3x v3y v3z m3_0 m3_1 m3_3 m3_4 m4_0 m4_1 m4_2 m4_4 m4_5 m4_6 m4_8 m4_9 m4_10] in *.
  destruct d; (eapply row2; [apply (proj1 U) | exact T | refine (g_small _ _ U _); shelve | exact H | eassumption .. | exact E | unfold mat_apply, hom2, ent3, RM3, RP2; cbn | unfold mat_apply, mat_abs, hom2, ent3, RM3, RP2, absP2; cbn]);
    repeat match goal with E : real_of _ = 0 |- _ => rewrite E; clear E end; rewrite ?Rabs_R0; try ring.
  Unshelve. all: lia.
Qed.
Lemma near_vec3 {A : arith} (m : Matrix4x4 (num A)) Q h (v : Vector3 (num A)) d : Near3 m Q h -> h <= 1 / 32 -> Finite (vcoord3 (m4_mul_vector m v) d) ->
  Rabs (real_of (vcoord3 (m4_mul_vector m v) d) - vcoord3 (Lin3 Q (RV3 v)) d) <= (h + 5 * unit_roundoff A) * Rsum3 (RV3 v) + 3 * min_subnormal A.
Proof.
  intros (NE & NQ & _ & _) H F. pose proof (u_pos (A:=A)) as U. pose proof (t_pos (A:=A)) as T. pose proof (C56_matrix_vector_accurate_3d_pf A m v d F) as E. cbv zeta in E.
  unfold Nr in NE. decompose [and] NE. decompose [and] NQ. clear NE NQ F. unfold Rsum3, Lin3. cbn [vcoord3 RV3 v2x v2y v3x v3y v3z m3_0 m3_1 m3_3 m3_4 m4_0 m4_1 m4_2 m4_4 m4_5 m4_6 m4_8 m4_9 m4_10] in *.
  destruct d; (eapply row3; [apply (proj1 U) |  refine (g_small _ _ U _); shelve | exact H | eassumption .. | exact E | unfold mat_apply, dir3, ent4, RM4, RV3; cbn; ring | unfold mat_apply, mat_abs, dir3, ent4, RM4, RV3, absV3; cbn; ring]).
  Unshelve. all: lia.
Qed.
Lemma near_pt3 {A : arith} (m : Matrix4x4 (num A)) Q h (p : Point3 (num A)) d : Near3 m Q h -> h <= 1 / 32 -> Finite3 p -> Finite (coord3 (m4_mul_point m p) d) ->
  Rabs (real_of (coord3 (m4_mul_point m p) d) - vcoord3 (Lin3 Q (toV3 (RP3 p))) d) <= (h + 5 * unit_roundoff A) * Rsum3 (toV3 (RP3 p)) + 3 * min_subnormal A.
Proof.
  intros (NE & NQ & NZ & Af) H Fp F. pose proof (u_pos (A:=A)) as U. pose proof (t_pos (A:=A)) as T. pose proof (C56_matrix_point_accurate_3d_pf A m p d Af Fp F) as E. cbv zeta in E.
  unfold Nr in NE. unfold Zr in NZ. decompose [and] NE. decompose [and] NQ. decompose [and] NZ. clear NE NQ NZ F. unfold Rsum3, Lin3. cbn [vcoord3 coord3 toV3 RP3 p2x p2y p3x p3y p3z v2x v2y v3x v3y v3z m3_0 m3_1 m3_3 m3_4 m4_0 m4_1 m4_2 m4_4 m4_5 m4_6 m4_8 m4_9 m4_10] in *.
  destruct d; (eapply row3; [apply (proj1 U) |  refine (g_small _ _ U _); shelve | exact H | eassumption .. | exact E | unfold mat_apply, hom3, ent4, RM4, RP3; cbn | unfold mat_apply, mat_abs, hom3, ent4, RM4, RP3, absP3; cbn]);
    repeat match goal with E : real_of _ = 0 |- _ => rewrite E; clear E end; rewrite ?Rabs_R0; try ring.
  Unshelve. all: lia.
Qed.
Definition sml2 (Q : Matrix3x3 R) : Prop := Rabs (m3_0 Q) <= 1 /\ Rabs (m3_1 Q) <= 1 /\ Rabs (m3_3 Q) <= 1 /\ Rabs (m3_4 Q) <= 1.
Definition vd2 (a b : Vector2 R) := mkVector2 (v2x a - v2x b) (v2y a - v2y b).
Lemma Rsum2_near (a b : Vector2 R) E : (forall d, Rabs (vcoord2 a d - vcoord2 b d) <= E) -> Rsum2 (vd2 a b) <= 2 * E /\ Rsum2 a <= Rsum2 b + 2 * E.
Proof.
  intros H. pose proof (H D2X) as HX. pose proof (H D2Y) as HY. cbn [vcoord2] in *. unfold Rsum2, vd2. cbn [v2x v2y]. split; [lra|].
  pose proof (Rabs_triang (v2x a - v2x b) (v2x b)) as TX. pose proof (Rabs_triang (v2y a - v2y b) (v2y b)) as TY.
  replace (v2x a - v2x b + v2x b) with (v2x a) in TX by ring. replace (v2y a - v2y b + v2y b) with (v2y a) in TY by ring. lra.
Qed.
Lemma Lin2_bound Q v d : sml2 Q -> Rabs (vcoord2 (Lin2 Q v) d) <= Rsum2 v.
Proof.
  intros (A0 & A1 & A3 & A4). assert (K : forall q x, Rabs q <= 1 -> Rabs (q * x) <= Rabs x). { intros q x H. rewrite Rabs_mult. pose proof (Rabs_pos x). assert (Rabs q * Rabs x <= 1 * Rabs x) by (apply Rmult_le_compat_r; lra). lra. }
  unfold Rsum2. destruct d; cbn [vcoord2 Lin2 v2x v2y]; (eapply Rle_trans; [apply Rabs_triang|]; apply Rplus_le_compat; now apply K).
Qed.
Lemma Rsum2_norm v : Rsum2 v <= 3 / 2 * Rnorm2 v.
Proof.
  destruct (Rnorm2_sq v) as (N & _ & _ & _). unfold Rdot2 in N. pose proof (sqrt_pos (v2x v ^ 2 + v2y v ^ 2)) as P. fold (Rnorm2 v) in P. unfold Rsum2.
  set (n := Rnorm2 v) in *. clearbody n. rewrite <- (abs_sq (v2x v)) in N || idtac. pose proof (abs_sq (v2x v)) as S1. pose proof (abs_sq (v2y v)) as S2. pose proof (Rabs_pos (v2x v)). pose proof (Rabs_pos (v2y v)).
  set (x := Rabs (v2x v)) in *. set (y := Rabs (v2y v)) in *. clearbody x y. assert (Q : x * x + y * y = n * n) by lra. apply Rsqr_incr_0_var; [|lra]. unfold Rsqr. pose proof (pow2_ge_0 (x - y)). nra.
Qed.
Lemma Lin2_vd Q a b d : vcoord2 (Lin2 Q (vd2 a b)) d = vcoord2 (Lin2 Q a) d - vcoord2 (Lin2 Q b) d.
Proof. destruct d; cbn; ring. Qed.
Definition sml3 (Q : Matrix4x4 R) : Prop := Rabs (m4_0 Q) <= 1 /\ Rabs (m4_1 Q) <= 1 /\ Rabs (m4_2 Q) <= 1 /\ Rabs (m4_4 Q) <= 1 /\ Rabs (m4_5 Q) <= 1 /\ Rabs (m4_6 Q) <= 1 /\
   Rabs (m4_8 Q) <= 1 /\ Rabs (m4_9 Q) <= 1 /\ Rabs (m4_10 Q) <= 1.
Definition vd3 (a b : Vector3 R) := mkVector3 (v3x a - v3x b) (v3y a - v3y b) (v3z a - v3z b).
Lemma Rsum3_near (a b : Vector3 R) E : (forall d, Rabs (vcoord3 a d - vcoord3 b d) <= E) -> Rsum3 (vd3 a b) <= 3 * E /\ Rsum3 a <= Rsum3 b + 3 * E.
Proof.
  intros H. pose proof (H D3X) as HX. pose proof (H D3Y) as HY. pose proof (H D3Z) as HZ. cbn [vcoord3] in *. unfold Rsum3, vd3. cbn [v3x v3y v3z]. split; [lra|].
  pose proof (Rabs_triang (v3x a - v3x b) (v3x b)) as TX. pose proof (Rabs_triang (v3y a - v3y b) (v3y b)) as TY. pose proof (Rabs_triang (v3z a - v3z b) (v3z b)) as TZ.
  replace (v3x a - v3x b + v3x b) with (v3x a) in TX by ring. replace (v3y a - v3y b + v3y b) with (v3y a) in TY by ring. replace (v3z a - v3z b + v3z b) with (v3z a) in TZ by ring. lra.
Qed.
Lemma Lin3_bound Q v d : sml3 Q -> Rabs (vcoord3 (Lin3 Q v) d) <= Rsum3 v.
Proof.
  intros (A0 & A1 & A2 & A3 & A4 & A5 & A6 & A7 & A8). assert (K : forall q x, Rabs q <= 1 -> Rabs (q * x) <= Rabs x). { intros q x H. rewrite Rabs_mult. pose proof (Rabs_pos x). assert (Rabs q * Rabs x <= 1 * Rabs x) by (apply Rmult_le_compat_r; lra). lra. }
  unfold Rsum3. destruct d; cbn [vcoord3 Lin3 v3x v3y v3z]; (eapply Rle_trans; [apply Rabs_triang|]; apply Rplus_le_compat; [|now apply K]; eapply Rle_trans; [apply Rabs_triang|]; apply Rplus_le_compat; now apply K).
Qed.
Lemma Rsum3_norm v : Rsum3 v <= 2 * Rnorm3 v.
Proof.
  destruct (Rnorm3_sq v) as (N & _ & _ & _). unfold Rdot3 in N. pose proof (sqrt_pos (v3x v ^ 2 + v3y v ^ 2 + v3z v ^ 2)) as P. fold (Rnorm3 v) in P. unfold Rsum3.
  set (n := Rnorm3 v) in *. clearbody n. pose proof (abs_sq (v3x v)) as S1. pose proof (abs_sq (v3y v)) as S2. pose proof (abs_sq (v3z v)) as S3. pose proof (Rabs_pos (v3x v)). pose proof (Rabs_pos (v3y v)). pose proof (Rabs_pos (v3z v)).
  set (x := Rabs (v3x v)) in *. set (y := Rabs (v3y v)) in *. set (z := Rabs (v3z v)) in *. clearbody x y z. assert (Q : x * x + y * y + z * z = n * n) by lra. apply Rsqr_incr_0_var; [|lra]. unfold Rsqr.
  pose proof (pow2_ge_0 (x - y)). pose proof (pow2_ge_0 (x - z)). pose proof (pow2_ge_0 (y - z)). nra.
Qed.
Lemma Lin3_vd Q a b d : vcoord3 (Lin3 Q (vd3 a b)) d = vcoord3 (Lin3 Q a) d - vcoord3 (Lin3 Q b) d.
Proof. destruct d; cbn; ring. Qed.
Lemma Rsum2_nn v : 0 <= Rsum2 v.
Proof. unfold Rsum2. repeat apply Rplus_le_le_0_compat; apply Rabs_pos. Qed.
Lemma round_trip2 (Q Q' : Matrix3x3 R) (v w w' : Vector2 R) (e t : R) d : sml2 Q -> sml2 Q' -> Lin2 Q' (Lin2 Q v) = v -> 0 <= e <= 1 / 4 -> 0 <= t ->
  (forall d, Rabs (vcoord2 w d - vcoord2 (Lin2 Q v) d) <= e * Rsum2 v + 3 * t) -> Rabs (vcoord2 w' d - vcoord2 (Lin2 Q' w) d) <= e * Rsum2 w + 3 * t ->
  Rabs (vcoord2 w' d - vcoord2 v d) <= 5 * e * Rsum2 v + 11 * t.
Proof.
  intros SQ SQ' I E T H H'. destruct (Rsum2_near _ _ _ H) as [N1 N2]. pose proof (Rsum2_nn v) as Pv. pose proof (Rsum2_nn (Lin2 Q v)) as Pq.
  assert (N3 : Rsum2 (Lin2 Q v) <= 2 * Rsum2 v). { unfold Rsum2 at 1. pose proof (fun d => Lin2_bound Q v d SQ) as B. pose proof (B D2X) as BX. pose proof (B D2Y) as BY.  cbn [vcoord2] in *. lra. }
  pose proof (Lin2_bound Q' (vd2 w (Lin2 Q v)) d SQ') as B. rewrite Lin2_vd, I in B.
  replace (vcoord2 w' d - vcoord2 v d) with ((vcoord2 w' d - vcoord2 (Lin2 Q' w) d) + (vcoord2 (Lin2 Q' w) d - vcoord2 v d)) by ring. eapply Rle_trans; [apply Rabs_triang|].
  assert (0 <= e * Rsum2 v) by (apply Rmult_le_pos; lra). assert (e * (e * Rsum2 v) <= 1 / 4 * (e * Rsum2 v)) by (apply Rmult_le_compat_r; lra). assert (e * t <= 1 / 4 * t) by (apply Rmult_le_compat_r; lra).
  assert (e * Rsum2 w <= e * (2 * Rsum2 v + 2 * (e * Rsum2 v + 3 * t))) by (apply Rmult_le_compat_l; lra). lra.
Qed.
Lemma norm_near2 (a b : Vector2 R) E : (forall d, Rabs (vcoord2 a d - vcoord2 b d) <= E) -> Rabs (Rnorm2 a - Rnorm2 b) <= 2 * E.
Proof.
  intros H. destruct (Rsum2_near a b E H) as [N _].
  assert (K : forall v, Rnorm2 v <= Rsum2 v). { intros v. pose proof (Rsum2_nn v) as P. destruct (Rnorm2_sq v) as (Q & _ & _ & _). pose proof (sqrt_pos (Rdot2 v v)). apply Rsqr_incr_0_var; [|lra]. unfold Rsqr. rewrite <- Q. unfold Rdot2, Rsum2. pose proof (abs_sq (v2x v)). pose proof (Rabs_pos (v2x v)). pose proof (abs_sq (v2y v)). pose proof (Rabs_pos (v2y v)). nra. }
  pose proof (triangle2 (vd2 a b) b) as T1. pose proof (triangle2 (vd2 b a) a) as T2. cbn [vd2 v2x v2y v3x v3y v3z] in T1, T2.
  assert (E1 : Rnorm2 (vd2 b a) = Rnorm2 (vd2 a b)) by (unfold Rnorm2, vd2; cbn [v2x v2y v3x v3y v3z]; f_equal; ring).
  pose proof (K (vd2 a b)). rewrite <- E1 in H0. 
  assert (X1 : forall x y : R, x - y + y = x) by (intros; ring). rewrite !X1 in T1, T2. rewrite E1 in H0. unfold vd2 in E1, H0. 
  assert (RA : Rnorm2 a <= Rnorm2 (vd2 a b) + Rnorm2 b) by (unfold vd2; destruct a, b; exact T1). assert (RB : Rnorm2 b <= Rnorm2 (vd2 b a) + Rnorm2 a) by (unfold vd2; destruct a, b; exact T2).
  unfold vd2 in *. rewrite E1 in RB. apply Rabs_le. lra.
Qed.
Lemma Rsum3_nn v : 0 <= Rsum3 v.
Proof. unfold Rsum3. repeat apply Rplus_le_le_0_compat; apply Rabs_pos. Qed.
Lemma round_trip3 (Q Q' : Matrix4x4 R) (v w w' : Vector3 R) (e t : R) d : sml3 Q -> sml3 Q' -> Lin3 Q' (Lin3 Q v) = v -> 0 <= e <= 1 / 4 -> 0 <= t ->
  (forall d, Rabs (vcoord3 w d - vcoord3 (Lin3 Q v) d) <= e * Rsum3 v + 3 * t) -> Rabs (vcoord3 w' d - vcoord3 (Lin3 Q' w) d) <= e * Rsum3 w + 3 * t ->
  Rabs (vcoord3 w' d - vcoord3 v d) <= 7 * e * Rsum3 v + 15 * t.
Proof.
  intros SQ SQ' I E T H H'. destruct (Rsum3_near _ _ _ H) as [N1 N2]. pose proof (Rsum3_nn v) as Pv. pose proof (Rsum3_nn (Lin3 Q v)) as Pq.
  assert (N3 : Rsum3 (Lin3 Q v) <= 3 * Rsum3 v). { unfold Rsum3 at 1. pose proof (fun d => Lin3_bound Q v d SQ) as B. pose proof (B D3X) as BX. pose proof (B D3Y) as BY. pose proof (B D3Z) as BZ. cbn [vcoord3] in *. lra. }
  pose proof (Lin3_bound Q' (vd3 w (Lin3 Q v)) d SQ') as B. rewrite Lin3_vd, I in B.
  replace (vcoord3 w' d - vcoord3 v d) with ((vcoord3 w' d - vcoord3 (Lin3 Q' w) d) + (vcoord3 (Lin3 Q' w) d - vcoord3 v d)) by ring. eapply Rle_trans; [apply Rabs_triang|].
  assert (0 <= e * Rsum3 v) by (apply Rmult_le_pos; lra). assert (e * (e * Rsum3 v) <= 1 / 4 * (e * Rsum3 v)) by (apply Rmult_le_compat_r; lra). assert (e * t <= 1 / 4 * t) by (apply Rmult_le_compat_r; lra).
  assert (e * Rsum3 w <= e * (3 * Rsum3 v + 3 * (e * Rsum3 v + 3 * t))) by (apply Rmult_le_compat_l; lra). lra.
Qed.
Lemma norm_near3 (a b : Vector3 R) E : (forall d, Rabs (vcoord3 a d - vcoord3 b d) <= E) -> Rabs (Rnorm3 a - Rnorm3 b) <= 3 * E.
Proof.
  intros H. destruct (Rsum3_near a b E H) as [N _].
  assert (K : forall v, Rnorm3 v <= Rsum3 v). { intros v. pose proof (Rsum3_nn v) as P. destruct (Rnorm3_sq v) as (Q & _ & _ & _). pose proof (sqrt_pos (Rdot3 v v)). apply Rsqr_incr_0_var; [|lra]. unfold Rsqr. rewrite <- Q. unfold Rdot3, Rsum3. pose proof (abs_sq (v3x v)). pose proof (Rabs_pos (v3x v)). pose proof (abs_sq (v3y v)). pose proof (Rabs_pos (v3y v)). pose proof (abs_sq (v3z v)). pose proof (Rabs_pos (v3z v)). nra. }
  pose proof (triangle3 (vd3 a b) b) as T1. pose proof (triangle3 (vd3 b a) a) as T2. cbn [vd3 v2x v2y v3x v3y v3z] in T1, T2.
  assert (E1 : Rnorm3 (vd3 b a) = Rnorm3 (vd3 a b)) by (unfold Rnorm3, vd3; cbn [v2x v2y v3x v3y v3z]; f_equal; ring).
  pose proof (K (vd3 a b)). rewrite <- E1 in H0. 
  assert (X1 : forall x y : R, x - y + y = x) by (intros; ring). rewrite !X1 in T1, T2. rewrite E1 in H0. unfold vd3 in E1, H0. 
  assert (RA : Rnorm3 a <= Rnorm3 (vd3 a b) + Rnorm3 b) by (unfold vd3; destruct a, b; exact T1). assert (RB : Rnorm3 b <= Rnorm3 (vd3 b a) + Rnorm3 a) by (unfold vd3; destruct a, b; exact T2).
  unfold vd3 in *. rewrite E1 in RB. apply Rabs_le. lra.
Qed.
Lemma sc_le1 a : Rabs (sin a) <= 1 /\ Rabs (cos a) <= 1 /\ Rabs (- sin a) <= 1.
Proof. rewrite Rabs_Ropp. pose proof (SIN_bound a). pose proof (COS_bound a). split; [|split]; apply Rabs_le; lra. Qed.
Ltac conjs := repeat match goal with |- _ /\ _ => split end.
Lemma Affine_refl3 {A : arith} : Eqs (szero : num A) szero /\ Eqs (sone : num A) sone.
Proof. destruct A as [f P|]; [destruct f; split; vm_compute; reflexivity|]. split; (unfold Eqs; simpl; unfold xeq, xle; rewrite Rle_bool_true by lra; reflexivity). Qed.
Ltac nearx SC e0 S1 S2 S3 := split; [conjs; first [apply Nr_0; exact e0 | apply Nr_1; exact e0 | exact (proj1 SC) | exact (proj2 SC) | apply Nr_neg; exact (proj1 SC)] |
  split; [conjs; first [exact S1 | exact S2 | exact S3 | rewrite Rabs_R0; lra | rewrite Rabs_R1; lra] | split; [conjs; apply Zr_0 | unfold Affine3x3, Affine4x4; cbn [m3_6 m3_7 m3_8 m4_12 m4_13 m4_14 m4_15]; conjs; apply Affine_refl3]]].
Lemma near_rotate2 {A : arith} (angle : num A) e : SinCosWithin angle e -> 0 <= e ->
  let a := real_of angle in
  Near2 (t2_forward (t2_rotate angle)) (mkM3 (cos a) (- sin a) 0 (sin a) (cos a) 0 0 0 1) e /\ Near2 (t2_inv (t2_rotate angle)) (mkM3 (cos a) (sin a) 0 (- sin a) (cos a) 0 0 0 1) e.
Proof.
  intros H e0 a. unfold SinCosWithin in H. unfold t2_rotate, m3_rotate. destruct (ssin_cos angle) as [s c]. destruct H as (Fs & Fc & Es & Ec). fold a in Es, Ec.
  assert (SC : Nr s (sin a) e /\ Nr c (cos a) e) by (split; split; assumption). destruct (sc_le1 a) as (S1 & S2 & S3).
  split; unfold Near2; cbn [t2_forward t2_inv t2_new m3_transpose m3_new m3_0 m3_1 m3_2 m3_3 m3_4 m3_5 m3_6 m3_7 m3_8]; nearx SC e0 S1 S2 S3.
Qed.
Ltac n4 := cbn [t3_forward t3_inv t3_new m4_transpose m4_new m4_0 m4_1 m4_2 m4_3 m4_4 m4_5 m4_6 m4_7 m4_8 m4_9 m4_10 m4_11 m4_12 m4_13 m4_14 m4_15 v3x v3y v3z].
Lemma near_rotate_x {A : arith} (angle : num A) e : SinCosWithin angle e -> 0 <= e -> let a := real_of angle in
  Near3 (t3_forward (t3_rotate_x angle)) (mkM4 1 0 0 0  0 (cos a) (- sin a) 0  0 (sin a) (cos a) 0  0 0 0 1) e /\
  Near3 (t3_inv (t3_rotate_x angle)) (mkM4 1 0 0 0  0 (cos a) (sin a) 0  0 (- sin a) (cos a) 0  0 0 0 1) e.
Proof.
  intros H e0 a. unfold SinCosWithin in H. unfold t3_rotate_x, m4_rotate_x. destruct (ssin_cos angle) as [s c]. destruct H as (Fs & Fc & Es & Ec). fold a in Es, Ec.
  assert (SC : Nr s (sin a) e /\ Nr c (cos a) e) by (split; split; assumption). destruct (sc_le1 a) as (S1 & S2 & S3). split; unfold Near3; n4; nearx SC e0 S1 S2 S3.
Qed.
Lemma near_rotate_y {A : arith} (angle : num A) e : SinCosWithin angle e -> 0 <= e -> let a := real_of angle in
  Near3 (t3_forward (t3_rotate_y angle)) (mkM4 (cos a) 0 (sin a) 0  0 1 0 0  (- sin a) 0 (cos a) 0  0 0 0 1) e /\
  Near3 (t3_inv (t3_rotate_y angle)) (mkM4 (cos a) 0 (- sin a) 0  0 1 0 0  (sin a) 0 (cos a) 0  0 0 0 1) e.
Proof.
  intros H e0 a. unfold SinCosWithin in H. unfold t3_rotate_y, m4_rotate_y. destruct (ssin_cos angle) as [s c]. destruct H as (Fs & Fc & Es & Ec). fold a in Es, Ec.
  assert (SC : Nr s (sin a) e /\ Nr c (cos a) e) by (split; split; assumption). destruct (sc_le1 a) as (S1 & S2 & S3). split; unfold Near3; n4; nearx SC e0 S1 S2 S3.
Qed.
Lemma near_rotate_z {A : arith} (angle : num A) e : SinCosWithin angle e -> 0 <= e -> let a := real_of angle in
  Near3 (t3_forward (t3_rotate_z angle)) (mkM4 (cos a) (- sin a) 0 0  (sin a) (cos a) 0 0  0 0 1 0  0 0 0 1) e /\
  Near3 (t3_inv (t3_rotate_z angle)) (mkM4 (cos a) (sin a) 0 0  (- sin a) (cos a) 0 0  0 0 1 0  0 0 0 1) e.
Proof.
  intros H e0 a. unfold SinCosWithin in H. unfold t3_rotate_z, m4_rotate_z. destruct (ssin_cos angle) as [s c]. destruct H as (Fs & Fc & Es & Ec). fold a in Es, Ec.
  assert (SC : Nr s (sin a) e /\ Nr c (cos a) e) by (split; split; assumption). destruct (sc_le1 a) as (S1 & S2 & S3). split; unfold Near3; n4; nearx SC e0 S1 S2 S3.
Qed.
(* the entries of the axis rotation *)
Lemma axis_entries {A : arith} (x y z s c : num A) (X Y Z a e : R) : let u := unit_roundoff A in let h := 2 * e + 52 * u in
  Nr x X (72 / 10 * u) -> Nr y Y (72 / 10 * u) -> Nr z Z (72 / 10 * u) -> Rabs X <= 1 -> Rabs Y <= 1 -> Rabs Z <= 1 -> Nr s (sin a) e -> Nr c (cos a) e -> 0 <= e <= 1 / 128 ->
  let cc := ssub sone c in
  Nr (sadd (smul (smul x x) cc) c) (X * X * (1 - cos a) + cos a) h /\
  Nr (ssub (smul (smul x y) cc) (smul z s)) (X * Y * (1 - cos a) - Z * sin a) h /\
  Nr (sadd (smul (smul x y) cc) (smul z s)) (X * Y * (1 - cos a) + Z * sin a) h.
Proof.
  intros u h Hx Hy Hz BX BY BZ Hs Hc E cc. pose proof (u_pos (A:=A)) as U. pose proof (t_pos (A:=A)) as T. pose proof (t_le_uuu (A:=A)) as TU. fold u in U, TU.
  assert (T1 : min_subnormal A <= / 16777216 * u). { eapply Rle_trans; [exact TU|]. replace (u * u * u) with ((u * u) * u) by ring. apply Rmult_le_compat_r; [lra|]. apply Rle_trans with (/ 16777216 * 1); [apply prod_le; lra | lra]. }
  destruct (sc_le1 a) as (S1 & S2 & _).
  assert (N1 : forall (v : num A) V, Nr v V (72 / 10 * u) -> Rabs V <= 1 -> Rabs (real_of v) <= 101 / 100) by (intros v V H B; apply Nr_abs in H; lra).
  pose proof (Nr_abs _ _ _ Hc) as Bc. pose proof (Nr_abs _ _ _ Hs) as Bs. destruct (real_of_1 (A:=A)) as [F1 V1].
  assert (Hcc : Nr cc (1 - cos a) (e + 21 / 10 * u)). { eapply Nr_le; [eapply (Nr_sub _ _ _ _ _ _ 1 (129 / 128)); [apply (Nr_1 0); lra | exact Hc | rewrite V1, Rabs_R1; lra | lra | lra]|]. fold u. lra. }
  assert (Bcc0 : Rabs (1 - cos a) <= 2) by (pose proof (COS_bound a); apply Rabs_le; lra). pose proof (Nr_abs _ _ _ Hcc) as Bcc.
  assert (P : forall (v w : num A) V W, Nr v V (72 / 10 * u) -> Nr w W (72 / 10 * u) -> Rabs V <= 1 -> Rabs W <= 1 -> Nr (smul (smul v w) cc) (V * W * (1 - cos a)) (e + 38 * u) /\ Rabs (real_of (smul (smul v w) cc)) <= 211 / 100).
  { intros v w V W Hv Hw BV BW. pose proof (N1 _ _ Hv BV) as Nv. pose proof (N1 _ _ Hw BW) as Nw.
    assert (H1 : Nr (smul v w) (V * W) (157 / 10 * u)). { eapply Nr_le; [eapply (Nr_mul _ _ _ _ _ _ (101 / 100) (101 / 100) 1); [exact Hv | exact Hw | exact Nv | exact Nw | exact BV | lra]|]. fold u. lra. }
    assert (B1 : Rabs (V * W) <= 1) by (rewrite Rabs_mult; pose proof (Rabs_pos V); pose proof (Rabs_pos W); apply Rle_trans with (1 * 1); [apply prod_le; lra | lra]).
    pose proof (Nr_abs _ _ _ H1) as B2.
    assert (H2 : Nr (smul (smul v w) cc) (V * W * (1 - cos a)) (e + 38 * u)). { eapply Nr_le; [eapply (Nr_mul _ _ _ _ _ _ (101 / 100) (201 / 100) 1); [exact H1 | exact Hcc | lra | lra | exact B1 | lra]|]. fold u. lra. }
    split; [exact H2|]. apply Nr_abs in H2. rewrite Rabs_mult in H2. assert (Rabs (V * W) * Rabs (1 - cos a) <= 1 * 2) by (apply prod_le; try lra; apply Rabs_pos). lra. }
  assert (Hzs : Nr (smul z s) (Z * sin a) (e + 9 * u) /\ Rabs (real_of (smul z s)) <= 102 / 100).
  { pose proof (N1 _ _ Hz BZ) as Nz. assert (H : Nr (smul z s) (Z * sin a) (e + 9 * u)). { eapply Nr_le; [eapply (Nr_mul _ _ _ _ _ _ (101 / 100) (129 / 128) 1); [exact Hz | exact Hs | exact Nz | lra | exact BZ | lra]|]. fold u. lra. }
    split; [exact H|]. apply Nr_abs in H. rewrite Rabs_mult in H. assert (Rabs Z * Rabs (sin a) <= 1 * 1) by (apply prod_le; try lra; apply Rabs_pos). lra. }
  split; [|split].
  - destruct (P x x X X Hx Hx BX BX) as [P1 P2]. eapply Nr_le; [eapply (Nr_add _ _ _ _ _ _ (211 / 100) (129 / 128)); [exact P1 | exact Hc | exact P2 | lra | lra]|]. unfold h. fold u. lra.
  - destruct (P x y X Y Hx Hy BX BY) as [P1 P2]. eapply Nr_le; [eapply (Nr_sub _ _ _ _ _ _ (211 / 100) (102 / 100)); [exact P1 | exact (proj1 Hzs) | exact P2 | exact (proj2 Hzs) | lra]|]. unfold h. fold u. lra.
  - destruct (P x y X Y Hx Hy BX BY) as [P1 P2]. eapply Nr_le; [eapply (Nr_add _ _ _ _ _ _ (211 / 100) (102 / 100)); [exact P1 | exact (proj1 Hzs) | exact P2 | exact (proj2 Hzs) | lra]|]. unfold h. fold u. lra.
Qed.
Definition Raxis_t (k : Vector3 R) (s c : R) : Matrix4x4 R :=
  let x := v3x k in let y := v3y k in let z := v3z k in
  mkM4 (x * x * (1 - c) + c) (x * y * (1 - c) + z * s) (x * z * (1 - c) - y * s) 0
       (x * y * (1 - c) - z * s) (y * y * (1 - c) + c) (y * z * (1 - c) + x * s) 0
       (x * z * (1 - c) + y * s) (y * z * (1 - c) - x * s) (z * z * (1 - c) + c) 0
       0 0 0 1.
Lemma Runit_ne k : 0 < Rnorm3 k -> k <> Rzero3.
Proof. intros P ->. unfold Rnorm3, Rzero3 in P. cbn in P. replace (0 * (0 * 1) + 0 * (0 * 1) + 0 * (0 * 1)) with 0 in P by ring. rewrite sqrt_0 in P. lra. Qed.
Lemma axis_iso k a v : 0 < Rnorm3 k -> Rnorm3 (Lin3 (Raxis (Runit k) (sin a) (cos a)) v) = Rnorm3 v /\ Rnorm3 (Lin3 (Raxis_t (Runit k) (sin a) (cos a)) v) = Rnorm3 v /\
  Lin3 (Raxis_t (Runit k) (sin a) (cos a)) (Lin3 (Raxis (Runit k) (sin a) (cos a)) v) = v.
Proof.
  intros P. pose proof (Runit_dot k (Runit_ne k P)) as U. pose proof (scm a) as SC. destruct (Runit k) as [x y z]. apply unit_z2 in U. destruct v as [v1 v2 v3].
  unfold Raxis, Raxis_t, Lin3, Rnorm3. n4. revert SC. generalize (sin a) (cos a). intros s c SC. split; [|split]; f_equal; ring [U SC].
Qed.
Lemma axis_sml k a : 0 < Rnorm3 k -> sml3 (Raxis (Runit k) (sin a) (cos a)) /\ sml3 (Raxis_t (Runit k) (sin a) (cos a)).
Proof.
  intros P.
  assert (K : forall Q : Matrix4x4 R, (forall v, Rnorm3 (Lin3 Q v) = Rnorm3 v) -> sml3 Q).
  { intros Q I. assert (B : forall v d, Rnorm3 v = 1 -> Rabs (vcoord3 (Lin3 Q v) d) <= 1) by (intros v d N; rewrite <- N, <- (I v); apply comp_le_norm3).
    assert (E1 : Rnorm3 (mkVector3 1 0 0) = 1) by (unfold Rnorm3; cbn [v3x v3y v3z]; replace (1 ^ 2 + 0 ^ 2 + 0 ^ 2) with 1 by ring; apply sqrt_1).
    assert (E2 : Rnorm3 (mkVector3 0 1 0) = 1) by (unfold Rnorm3; cbn [v3x v3y v3z]; replace (0 ^ 2 + 1 ^ 2 + 0 ^ 2) with 1 by ring; apply sqrt_1).
    assert (E3 : Rnorm3 (mkVector3 0 0 1) = 1) by (unfold Rnorm3; cbn [v3x v3y v3z]; replace (0 ^ 2 + 0 ^ 2 + 1 ^ 2) with 1 by ring; apply sqrt_1).
    pose proof (B _ D3X E1) as B11. pose proof (B _ D3Y E1) as B21. pose proof (B _ D3Z E1) as B31. pose proof (B _ D3X E2) as B12. pose proof (B _ D3Y E2) as B22. pose proof (B _ D3Z E2) as B32.
    pose proof (B _ D3X E3) as B13. pose proof (B _ D3Y E3) as B23. pose proof (B _ D3Z E3) as B33. clear B. cbn [vcoord3 Lin3 v3x v3y v3z] in *. rewrite !Rmult_0_r, ?Rmult_1_r, ?Rplus_0_r, ?Rplus_0_l in *.
    unfold sml3. tauto. }
  split; apply K; intros v; apply axis_iso; assumption.
Qed.
Lemma near_rotate_axis {A : arith} (k : Vector3 (num A)) (angle : num A) e : SinCosWithin angle e -> 0 <= e <= 1 / 128 ->
  Finite (v3_dot k k) -> min_subnormal A <= unit_roundoff A * real_of (v3_dot k k) -> 0 < Rnorm3 (RV3 k) -> let a := real_of angle in
  Near3 (t3_forward (t3_rotate_axis k angle)) (Raxis (Runit (RV3 k)) (sin a) (cos a)) (2 * e + 52 * unit_roundoff A) /\
  Near3 (t3_inv (t3_rotate_axis k angle)) (Raxis_t (Runit (RV3 k)) (sin a) (cos a)) (2 * e + 52 * unit_roundoff A).
Proof.
  intros H e0 F T P a. destruct (C24_normalize_accurate_3d_pf A k F T P) as (Fn & En & _). destruct (axis_sml (RV3 k) a P) as [M1 M2].
  assert (N : forall d, Nr (vcoord3 (v3_normalize k) d) (vcoord3 (Runit (RV3 k)) d) (72 / 10 * unit_roundoff A) /\ Rabs (vcoord3 (Runit (RV3 k)) d) <= 1).
  { intros d. pose proof (u_pos (A:=A)) as U. pose proof (t_pos (A:=A)) as T0. pose proof (t_le_uuu (A:=A)) as TU. set (u := unit_roundoff A) in *.
    assert (T1 : min_subnormal A <= / 16777216 * u). { eapply Rle_trans; [exact TU|]. replace (u * u * u) with ((u * u) * u) by ring. apply Rmult_le_compat_r; [lra|]. apply Rle_trans with (/ 16777216 * 1); [apply prod_le; lra | lra]. }
    assert (B : Rabs (vcoord3 (Runit (RV3 k)) d) <= 1). { pose proof (Runit_dot _ (Runit_ne _ P)) as D. eapply Rle_trans; [apply comp_le_norm3|]. destruct (Rnorm3_sq (Runit (RV3 k))) as (_ & _ & _ & ->). rewrite D, sqrt_1. lra. }
    split; [|exact B]. split; [apply Fn|]. specialize (En d). cbv zeta in En.
    replace (vcoord3 (RV3 (v3_normalize k)) d) with (real_of (vcoord3 (v3_normalize k) d)) in En by (destruct d; reflexivity).
    replace (vcoord3 (Runit (RV3 k)) d) with (vcoord3 (RV3 k) d / Rnorm3 (RV3 k)) in * by (destruct d; reflexivity).
    assert (u * Rabs (vcoord3 (RV3 k) d / Rnorm3 (RV3 k)) <= u * 1) by (apply Rmult_le_compat_l; lra). lra. }
  pose proof (N D3X) as [NX BX]. pose proof (N D3Y) as [NY BY]. pose proof (N D3Z) as [NZ BZ]. cbn [vcoord3] in *. clear N En Fn.
  unfold SinCosWithin in H. unfold t3_rotate_axis, m4_rotate_axis. destruct (ssin_cos angle) as [s c]. destruct H as (Fs & Fc & Es & Ec). fold a in Es, Ec.
  assert (Hs : Nr s (sin a) e) by (split; assumption). assert (Hc : Nr c (cos a) e) by (split; assumption). cbv zeta.
  set (n := v3_normalize k) in *. clearbody n. set (q := Runit (RV3 k)) in *. clearbody q.
  destruct (axis_entries _ _ _ s c _ _ _ a e NX NY NZ BX BY BZ Hs Hc e0) as (E0 & E1 & E4).
  destruct (axis_entries _ _ _ s c _ _ _ a e NX NZ NY BX BZ BY Hs Hc e0) as (_ & E8 & E2).
  destruct (axis_entries _ _ _ s c _ _ _ a e NY NZ NX BY BZ BX Hs Hc e0) as (E5 & E6 & E9).
  destruct (axis_entries _ _ _ s c _ _ _ a e NZ NY NX BZ BY BX Hs Hc e0) as (E10 & _ & _).
  split; (split; [unfold Raxis, Raxis_t; n4; conjs; assumption | split; [first [exact M1 | exact M2]|split; [n4; conjs; apply Zr_0 | unfold Affine4x4; n4; conjs; apply Affine_refl3]]]).
Qed.
(* every rotation of the API: its matrices are close to those of the exact rotation and its inverse *)
Lemma Rotation_near {A : arith} (angle : num A) e t f h : Rotation angle e t f h -> SinCosWithin angle e -> 0 <= e <= 1 / 128 -> let a := real_of angle in
  exists Q Q', Near3 (t3_forward t) Q h /\ Near3 (t3_inv t) Q' h /\ (forall v, Lin3 Q v = f a v) /\ (forall v, Lin3 Q' v = f (- a) v) /\
    (forall v, Lin3 Q' (Lin3 Q v) = v) /\ (forall v, Rnorm3 (Lin3 Q v) = Rnorm3 v) /\ 0 <= h <= 1 / 32.
Proof.
  intros H SC E a. pose proof (u_pos (A:=A)) as U. pose proof (scm a) as S.
  destruct H as [| | |k F T P].
  - destruct (near_rotate_x angle e SC (proj1 E)) as [N1 N2]. do 2 eexists. split; [exact N1|]. split; [exact N2|]. fold a. unfold Lin3, Rrot_x, Rnorm3. n4. rewrite sin_neg, cos_neg.
    conjs; try lra; intros [x y z]; n4; f_equal; try ring; ring [S].
  - destruct (near_rotate_y angle e SC (proj1 E)) as [N1 N2]. do 2 eexists. split; [exact N1|]. split; [exact N2|]. fold a. unfold Lin3, Rrot_y, Rnorm3. n4. rewrite sin_neg, cos_neg.
    conjs; try lra; intros [x y z]; n4; f_equal; try ring; ring [S].
  - destruct (near_rotate_z angle e SC (proj1 E)) as [N1 N2]. do 2 eexists. split; [exact N1|]. split; [exact N2|]. fold a. unfold Lin3, Rrot_z, Rnorm3. n4. rewrite sin_neg, cos_neg.
    conjs; try lra; intros [x y z]; n4; f_equal; try ring; ring [S].
  - destruct (near_rotate_axis k angle e SC E F T P) as [N1 N2]. do 2 eexists. split; [exact N1|]. split; [exact N2|]. fold a.
    split; [|split; [|split; [intros v; now apply axis_iso|split; [intros v; now apply axis_iso|lra]]]];
    intros [x y z]; unfold Lin3, Raxis, Raxis_t, Rrot_axis; pose proof (Runit_dot _ (Runit_ne _ P)) as D; unfold Runit in *; n4; unfold Rdot3 in D; cbn [v3x v3y v3z] in D; rewrite ?sin_neg, ?cos_neg;
      set (p := v3x (RV3 k) / Rnorm3 (RV3 k)) in *; set (q := v3y (RV3 k) / Rnorm3 (RV3 k)) in *; set (r := v3z (RV3 k) / Rnorm3 (RV3 k)) in *; f_equal; ring.
Qed.
Lemma Rot2_near {A : arith} (angle : num A) e : SinCosWithin angle e -> 0 <= e -> let a := real_of angle in let t := t2_rotate angle in
  exists Q Q', Near2 (t2_forward t) Q e /\ Near2 (t2_inv t) Q' e /\ (forall v, Lin2 Q v = Rrot2 a v) /\ (forall v, Lin2 Q' v = Rrot2 (- a) v) /\
    (forall v, Lin2 Q' (Lin2 Q v) = v) /\ (forall v, Rnorm2 (Lin2 Q v) = Rnorm2 v).
Proof.
  intros SC E a t. pose proof (scm a) as S. destruct (near_rotate2 angle e SC E) as [N1 N2]. do 2 eexists. split; [exact N1|]. split; [exact N2|]. fold a. unfold Lin2, Rrot2, Rnorm2.
  cbn [m3_0 m3_1 m3_3 m3_4]. rewrite sin_neg, cos_neg. conjs; intros [x y]; cbn [v2x v2y]; f_equal; try ring; ring [S].
Qed.
Lemma C78_rotation_accurate_2d_pf : forall (A : arith) (angle : num A) (e : R), SinCosWithin angle e -> 0 <= e <= 1 / 128 ->
  let a := real_of angle in let t := t2_rotate angle in let h := e + 5 * unit_roundoff A in
  (forall v d, Finite (vcoord2 (t2_transform_vector t v) d) ->
     Rabs (real_of (vcoord2 (t2_transform_vector t v) d) - vcoord2 (Rrot2 a (RV2 v)) d) <= h * Rsum2 (RV2 v) + 3 * min_subnormal A) /\
  (forall v d, Finite (vcoord2 (t2_transform_vector (t2_inverse t) v) d) ->
     Rabs (real_of (vcoord2 (t2_transform_vector (t2_inverse t) v) d) - vcoord2 (Rrot2 (- a) (RV2 v)) d) <= h * Rsum2 (RV2 v) + 3 * min_subnormal A) /\
  (forall p d, Finite2 p -> Finite (coord2 (t2_transform_point t p) d) ->
     Rabs (real_of (coord2 (t2_transform_point t p) d) - vcoord2 (Rrot2 a (toV2 (RP2 p))) d) <= h * Rsum2 (toV2 (RP2 p)) + 3 * min_subnormal A) /\
  (forall p d, Finite2 p -> Finite (coord2 (t2_transform_point (t2_inverse t) p) d) ->
     Rabs (real_of (coord2 (t2_transform_point (t2_inverse t) p) d) - vcoord2 (Rrot2 (- a) (toV2 (RP2 p))) d) <= h * Rsum2 (toV2 (RP2 p)) + 3 * min_subnormal A).
Proof.
  intros A angle e SC E a t h. destruct (Rot2_near angle e SC (proj1 E)) as (Q & Q' & N1 & N2 & L1 & L2 & _ & _). fold a t in N1, N2, L1, L2.
  split; [|split; [|split]].
  - intros v d F. rewrite <- L1. apply near_vec2; [exact N1 | lra | exact F].
  - intros v d F. rewrite <- L2. apply near_vec2; [exact N2 | lra | exact F].
  - intros p d Fp F. rewrite <- L1. apply near_pt2; [exact N1 | lra | exact Fp | exact F].
  - intros p d Fp F. rewrite <- L2. apply near_pt2; [exact N2 | lra | exact Fp | exact F].
Qed.
Lemma C78_rotation_accurate_3d_pf : forall (A : arith) (angle : num A) (e : R) t f e', Rotation angle e t f e' -> SinCosWithin angle e -> 0 <= e <= 1 / 128 ->
  let a := real_of angle in let h := e' + 5 * unit_roundoff A in
  (forall v d, Finite (vcoord3 (t3_transform_vector t v) d) ->
     Rabs (real_of (vcoord3 (t3_transform_vector t v) d) - vcoord3 (f a (RV3 v)) d) <= h * Rsum3 (RV3 v) + 3 * min_subnormal A) /\
  (forall v d, Finite (vcoord3 (t3_transform_vector (t3_inverse t) v) d) ->
     Rabs (real_of (vcoord3 (t3_transform_vector (t3_inverse t) v) d) - vcoord3 (f (- a) (RV3 v)) d) <= h * Rsum3 (RV3 v) + 3 * min_subnormal A) /\
  (forall p d, Finite3 p -> Finite (coord3 (t3_transform_point t p) d) ->
     Rabs (real_of (coord3 (t3_transform_point t p) d) - vcoord3 (f a (toV3 (RP3 p))) d) <= h * Rsum3 (toV3 (RP3 p)) + 3 * min_subnormal A) /\
  (forall p d, Finite3 p -> Finite (coord3 (t3_transform_point (t3_inverse t) p) d) ->
     Rabs (real_of (coord3 (t3_transform_point (t3_inverse t) p) d) - vcoord3 (f (- a) (toV3 (RP3 p))) d) <= h * Rsum3 (toV3 (RP3 p)) + 3 * min_subnormal A).
Proof.
  intros A angle e t f e' R SC E a h. destruct (Rotation_near angle e t f e' R SC E) as (Q & Q' & N1 & N2 & L1 & L2 & _ & _ & HB). fold a in L1, L2.
  split; [|split; [|split]].
  - intros v d F. rewrite <- L1. apply near_vec3; [exact N1 | lra | exact F].
  - intros v d F. rewrite <- L2. apply near_vec3; [exact N2 | lra | exact F].
  - intros p d Fp F. rewrite <- L1. apply near_pt3; [exact N1 | lra | exact Fp | exact F].
  - intros p d Fp F. rewrite <- L2. apply near_pt3; [exact N2 | lra | exact Fp | exact F].
Qed.
Lemma C78_rotation_round_trip_2d_pf : forall (A : arith) (angle : num A) (e : R), SinCosWithin angle e -> 0 <= e <= 1 / 128 ->
  let t := t2_rotate angle in let h := e + 5 * unit_roundoff A in
  (forall v d, let w := t2_transform_vector t v in VFinite2 w -> Finite (vcoord2 (t2_transform_vector (t2_inverse t) w) d) ->
     Rabs (real_of (vcoord2 (t2_transform_vector (t2_inverse t) w) d) - real_of (vcoord2 v d)) <= 5 * h * Rsum2 (RV2 v) + 11 * min_subnormal A) /\
  (forall p d, let q := t2_transform_point t p in Finite2 p -> Finite2 q -> Finite (coord2 (t2_transform_point (t2_inverse t) q) d) ->
     Rabs (real_of (coord2 (t2_transform_point (t2_inverse t) q) d) - real_of (coord2 p d)) <= 5 * h * Rsum2 (toV2 (RP2 p)) + 11 * min_subnormal A).
Proof.
  intros A angle e SC E t h. destruct (Rot2_near angle e SC (proj1 E)) as (Q & Q' & N1 & N2 & _ & _ & I & _). fold t in N1, N2. pose proof (u_pos (A:=A)) as U.
  assert (H0 : 0 <= h <= 1 / 4) by (unfold h; lra). assert (V1 : forall (v : Vector2 (num A)) d, real_of (vcoord2 v d) = vcoord2 (RV2 v) d) by (intros v []; reflexivity).
  assert (V2 : forall (p : Point2 (num A)) d, real_of (coord2 p d) = vcoord2 (toV2 (RP2 p)) d) by (intros p []; reflexivity). split.
  - intros v d w Fw F. rewrite !V1. refine (round_trip2 Q Q' (RV2 v) (RV2 w) _ h (min_subnormal A) d (proj1 (proj2 N1)) (proj1 (proj2 N2)) (I _) H0 t_pos _ _).
    + intros d'. rewrite <- V1. apply near_vec2; [exact N1 | lra | apply Fw].
    + rewrite <- V1. apply near_vec2; [exact N2 | lra | exact F].
  - intros p d q Fp Fq F. rewrite !V2. refine (round_trip2 Q Q' (toV2 (RP2 p)) (toV2 (RP2 q)) _ h (min_subnormal A) d (proj1 (proj2 N1)) (proj1 (proj2 N2)) (I _) H0 t_pos _ _).
    + intros d'. rewrite <- V2. apply near_pt2; [exact N1 | lra | exact Fp | apply Fq].
    + rewrite <- V2. apply near_pt2; [exact N2 | lra | exact Fq | exact F].
Qed.
Lemma C78_rotation_round_trip_3d_pf : forall (A : arith) (angle : num A) (e : R) t f e', Rotation angle e t f e' -> SinCosWithin angle e -> 0 <= e <= 1 / 128 ->
  let h := e' + 5 * unit_roundoff A in
  (forall v d, let w := t3_transform_vector t v in VFinite3 w -> Finite (vcoord3 (t3_transform_vector (t3_inverse t) w) d) ->
     Rabs (real_of (vcoord3 (t3_transform_vector (t3_inverse t) w) d) - real_of (vcoord3 v d)) <= 7 * h * Rsum3 (RV3 v) + 15 * min_subnormal A) /\
  (forall p d, let q := t3_transform_point t p in Finite3 p -> Finite3 q -> Finite (coord3 (t3_transform_point (t3_inverse t) q) d) ->
     Rabs (real_of (coord3 (t3_transform_point (t3_inverse t) q) d) - real_of (coord3 p d)) <= 7 * h * Rsum3 (toV3 (RP3 p)) + 15 * min_subnormal A).
Proof.
  intros A angle e t f e' R SC E h. destruct (Rotation_near angle e t f e' R SC E) as (Q & Q' & N1 & N2 & _ & _ & I & _ & HB). pose proof (u_pos (A:=A)) as U.
  assert (H0 : 0 <= h <= 1 / 4) by (unfold h; lra). assert (V1 : forall (v : Vector3 (num A)) d, real_of (vcoord3 v d) = vcoord3 (RV3 v) d) by (intros v []; reflexivity).
  assert (V2 : forall (p : Point3 (num A)) d, real_of (coord3 p d) = vcoord3 (toV3 (RP3 p)) d) by (intros p []; reflexivity). split.
  - intros v d w Fw F. rewrite !V1. refine (round_trip3 Q Q' (RV3 v) (RV3 w) _ h (min_subnormal A) d (proj1 (proj2 N1)) (proj1 (proj2 N2)) (I _) H0 t_pos _ _).
    + intros d'. rewrite <- V1. apply near_vec3; [exact N1 | lra | apply Fw].
    + rewrite <- V1. apply near_vec3; [exact N2 | lra | exact F].
  - intros p d q Fp Fq F. rewrite !V2. refine (round_trip3 Q Q' (toV3 (RP3 p)) (toV3 (RP3 q)) _ h (min_subnormal A) d (proj1 (proj2 N1)) (proj1 (proj2 N2)) (I _) H0 t_pos _ _).
    + intros d'. rewrite <- V2. apply near_pt3; [exact N1 | lra | exact Fp | apply Fq].
    + rewrite <- V2. apply near_pt3; [exact N2 | lra | exact Fq | exact F].
Qed.
Lemma C78_rotation_keeps_length_2d_pf : forall (A : arith) (angle : num A) (e : R), SinCosWithin angle e -> 0 <= e <= 1 / 128 ->
  let t := t2_rotate angle in let h := e + 5 * unit_roundoff A in forall v, let w := t2_transform_vector t v in VFinite2 w ->
  Rabs (Rnorm2 (RV2 w) - Rnorm2 (RV2 v)) <= 3 * h * Rnorm2 (RV2 v) + 6 * min_subnormal A.
Proof.
  intros A angle e SC E t h v w Fw. destruct (Rot2_near angle e SC (proj1 E)) as (Q & Q' & N1 & _ & _ & _ & _ & I). fold t in N1. pose proof (u_pos (A:=A)) as U.
  rewrite <- (I (RV2 v)) at 1. eapply Rle_trans; [apply (norm_near2 _ _ (h * Rsum2 (RV2 v) + 3 * min_subnormal A))|].
  - intros d. replace (vcoord2 (RV2 w) d) with (real_of (vcoord2 w d)) by (destruct d; reflexivity). apply near_vec2; [exact N1 | lra | apply Fw].
  - pose proof (Rsum2_norm (RV2 v)). assert (0 <= h) by (unfold h; lra). assert (h * Rsum2 (RV2 v) <= h * (3 / 2 * Rnorm2 (RV2 v))) by (apply Rmult_le_compat_l; lra). lra.
Qed.
Lemma C78_rotation_keeps_length_3d_pf : forall (A : arith) (angle : num A) (e : R) t f e', Rotation angle e t f e' -> SinCosWithin angle e -> 0 <= e <= 1 / 128 ->
  let h := e' + 5 * unit_roundoff A in forall v, let w := t3_transform_vector t v in VFinite3 w ->
  Rabs (Rnorm3 (RV3 w) - Rnorm3 (RV3 v)) <= 6 * h * Rnorm3 (RV3 v) + 9 * min_subnormal A.
Proof.
  intros A angle e t f e' R SC E h v w Fw. destruct (Rotation_near angle e t f e' R SC E) as (Q & Q' & N1 & _ & _ & _ & _ & I & HB). pose proof (u_pos (A:=A)) as U.
  rewrite <- (I (RV3 v)) at 1. eapply Rle_trans; [apply (norm_near3 _ _ (h * Rsum3 (RV3 v) + 3 * min_subnormal A))|].
  - intros d. replace (vcoord3 (RV3 w) d) with (real_of (vcoord3 w d)) by (destruct d; reflexivity). apply near_vec3; [exact N1 | lra | apply Fw].
  - pose proof (Rsum3_norm (RV3 v)). assert (0 <= h) by (unfold h; lra). assert (h * Rsum3 (RV3 v) <= h * (2 * Rnorm3 (RV3 v))) by (apply Rmult_le_compat_l; lra). lra.
Qed.
Lemma tx_unit_row {A : arith} (x y z : num A) : Finite x -> Finite y -> Finite z ->
  (Eqs (sadd (sadd (smul sone x) (smul szero y)) (smul szero z)) x) /\ (Eqs (sadd (sadd (smul szero y) (smul sone x)) (smul szero z)) x) /\ (Eqs (sadd (sadd (smul szero y) (smul szero z)) (smul sone x)) x).
Proof.
  intros Fx Fy Fz. apply Finite_real in Fx as Ex, Fy as Ey, Fz as Ez.
  assert (M0 : forall w : num A, Finite w -> tx (smul szero w) = Fin 0). { intros w Fw. rewrite tx_mul, tx_0, (Finite_real _ Fw). cbn [xmul]. now rewrite Rmult_0_l, xr_0. }
  assert (R1 : xr A (Fin (real_of x)) = Fin (real_of x)) by (rewrite <- Ex; apply xr_tx).
  assert (M1 : tx (smul sone x) = Fin (real_of x)). { rewrite tx_mul, tx_1, Ex. cbn [xmul]. now rewrite Rmult_1_l. }
  assert (K : forall w : num A, tx w = Fin (real_of x) -> Eqs w x) by (intros w W; apply Eqs_tx; rewrite W, Ex; split; [reflexivity | discriminate]).
  conjs; apply K; rewrite !tx_add, !M0, M1 by assumption; cbn [xadd]; rewrite ?Rplus_0_r, ?Rplus_0_l, ?xr_0, ?R1; cbn [xadd]; rewrite ?Rplus_0_r, ?Rplus_0_l, ?xr_0, ?R1; reflexivity.
Qed.
Lemma C78_axis_component_kept_pf : forall (A : arith) (angle : num A) (v : Vector3 (num A)), VFinite3 v ->
  Eqs (v3x (t3_transform_vector (t3_rotate_x angle) v)) (v3x v) /\ Eqs (v3y (t3_transform_vector (t3_rotate_y angle) v)) (v3y v) /\
  Eqs (v3z (t3_transform_vector (t3_rotate_z angle) v)) (v3z v).
Proof.
  intros A angle v F. pose proof (F D3X) as FX. pose proof (F D3Y) as FY. pose proof (F D3Z) as FZ. cbn [vcoord3] in *.
  unfold t3_transform_vector, t3_rotate_x, t3_rotate_y, t3_rotate_z, m4_rotate_x, m4_rotate_y, m4_rotate_z. destruct (ssin_cos angle) as [s c]. unfold m4_mul_vector, v3_new. n4.
  conjs; now apply tx_unit_row.
Qed.
