(** Proofs: accuracy of dot and cross products, length, distance, normalize, matrix products, ray evaluation. *)
From Coq Require Import Bool NArith ZArith Reals List Lra Lia.
From Flocq Require Import Core.Zaux Core.Raux.
From Verif Require Import Scalar Types Vector2 Vector3 Point2 Point3 Ray BoundingBox2 BoundingBox3 Transform2 Transform3 Float
  XReal OrdLaws Arith SpecOrder SpecStruct SpecFloat SpecReal SpecErr FloatX XArith FloatLaws FloatGeom FloatTrans ErrBase.
Import ListNotations.
Local Open Scope R_scope.
Section G.
Context {A : arith}.
Notation u := (unit_roundoff A).
Notation t := (min_subnormal A).
Lemma Apx_mul1 (x y : num A) : Finite (smul x y) -> Apx (smul x y) (real_of x * real_of y) (Rabs (real_of x) * Rabs (real_of y)) 1 (t / 2).
Proof.
  intros H. replace (t / 2) with (0 * Rabs (real_of y) + 0 * Rabs (real_of x) + 0 * 0 + t / 2) by lra.
  apply (Apx_mul x y _ _ _ _ 0 0 0 0 H); intros; now apply Apx_leaf.
Qed.
Lemma Apx_dot2 (a b c d : num A) : Finite (sadd (smul a b) (smul c d)) ->
  Apx (sadd (smul a b) (smul c d)) (real_of a * real_of b + real_of c * real_of d) (Rabs (real_of a) * Rabs (real_of b) + Rabs (real_of c) * Rabs (real_of d)) 2 t.
Proof. intros H. replace t with (t / 2 + t / 2) by lra. apply Apx_add; [assumption | apply Apx_mul1..]. Qed.
Lemma Apx_sum3 (a b x : num A) (r m s k : R) n e e' : Finite (sadd x (smul a b)) -> (Finite x -> Apx x r m (S n) e) -> e + t / 2 <= e' ->
  Apx (sadd x (smul a b)) (r + real_of a * real_of b) (m + Rabs (real_of a) * Rabs (real_of b)) (S (S n)) e'.
Proof.
  intros H X E. apply Apx_weaken with (S (S n)) (e + t / 2); [|lia|lra]. apply Apx_add; [assumption|assumption|].
  intros F. apply Apx_weaken with 1%nat (t / 2); [now apply Apx_mul1 | lia | lra].
Qed.
Lemma Apx_dot3 (a b c d e f : num A) : let s := sadd (sadd (smul a b) (smul c d)) (smul e f) in Finite s ->
  Apx s (real_of a * real_of b + real_of c * real_of d + real_of e * real_of f)
    (Rabs (real_of a) * Rabs (real_of b) + Rabs (real_of c) * Rabs (real_of d) + Rabs (real_of e) * Rabs (real_of f)) 3 (3 * t / 2).
Proof. intros s H. apply Apx_sum3 with t; try exact 0; [assumption | apply Apx_dot2 | pose proof (t_pos (A:=A)); lra]. Qed.
Lemma Apx_dot4 (a b c d e f g h : num A) : let s := sadd (sadd (sadd (smul a b) (smul c d)) (smul e f)) (smul g h) in Finite s ->
  Apx s (real_of a * real_of b + real_of c * real_of d + real_of e * real_of f + real_of g * real_of h)
    (Rabs (real_of a) * Rabs (real_of b) + Rabs (real_of c) * Rabs (real_of d) + Rabs (real_of e) * Rabs (real_of f) + Rabs (real_of g) * Rabs (real_of h)) 4 (2 * t).
Proof. intros s H. apply Apx_sum3 with (3 * t / 2); try exact 0; [assumption | apply Apx_dot3 | pose proof (t_pos (A:=A)); lra]. Qed.
Lemma Apx_plus (x y : num A) r m n e : Finite (sadd x y) -> (Finite x -> Apx x r m n e) -> Apx (sadd x y) (r + real_of y) (m + Rabs (real_of y)) (S n) e.
Proof.
  intros F X. destruct (err_add x y F) as (Fx & Fy & _). pose proof (X Fx) as (_ & _ & _ & P). replace e with (e + 0) at 1 by lra. apply Apx_add; [assumption..|].
  intros _. apply Apx_weaken with 0%nat 0; [now apply Apx_leaf | lia | lra].
Qed.
Lemma Apx_diff2 (a b c d : num A) : Finite (ssub (smul a b) (smul c d)) ->
  Apx (ssub (smul a b) (smul c d)) (real_of a * real_of b - real_of c * real_of d) (Rabs (real_of a) * Rabs (real_of b) + Rabs (real_of c) * Rabs (real_of d)) 2 t.
Proof. intros H. replace t with (t / 2 + t / 2) by lra. apply Apx_sub; [assumption | apply Apx_mul1..]. Qed.
(* (1+u)^n <= 2 for small n *)
Lemma G_small n : (n <= 8)%nat -> (1 + u) ^ n <= 2.
Proof.
  intros H. pose proof (u_pos (A:=A)) as U. apply Rle_trans with ((1 + u) ^ 8); [apply Rle_pow; [lra|assumption]|].
  apply Rle_trans with ((1 + / 16777216) ^ 8); [apply pow_incr; lra | cbn; lra].
Qed.
(* the form in which accuracy is stated *)
Lemma Apx_bound (x : num A) r m n e k : (n <= 8)%nat -> Apx x r m n e -> 2 * e <= k -> Rabs (real_of x - r) <= ((1 + u) ^ n - 1) * m + k.
Proof.
  intros N (_ & E & _ & P) K. eapply Rle_trans; [exact E|]. apply Rplus_le_compat_l. pose proof (G_small n N). pose proof (@G_ge1 A n).
  apply Rle_trans with (e * 2); [apply Rmult_le_compat_l|]; lra.
Qed.
End G.
Lemma C54_dot_accurate_2d_pf : forall (A : arith) (a b : Vector2 (num A)), Finite (v2_dot a b) ->
  Rabs (real_of (v2_dot a b) - Rdot2 (RV2 a) (RV2 b)) <=
  ((1 + unit_roundoff A) ^ 2 - 1) * Rdot2 (absV2 (RV2 a)) (absV2 (RV2 b)) + 2 * min_subnormal A.
Proof.
  intros A a b H. eapply Apx_bound; [|exact (Apx_dot2 _ _ _ _  H)|]; [lia | lra].
Qed.
Lemma C54_dot_accurate_3d_pf : forall (A : arith) (a b : Vector3 (num A)), Finite (v3_dot a b) ->
  Rabs (real_of (v3_dot a b) - Rdot3 (RV3 a) (RV3 b)) <=
  ((1 + unit_roundoff A) ^ 3 - 1) * Rdot3 (absV3 (RV3 a)) (absV3 (RV3 b)) + 3 * min_subnormal A.
Proof.
  intros A a b H. eapply Apx_bound; [|exact (Apx_dot3 _ _ _ _ _ _ H)|]; [lia | lra].
Qed.
Lemma C59_cross_accurate_pf : forall (A : arith) (a b : Vector3 (num A)) (d : Dimension3), Finite (vcoord3 (v3_cross a b) d) ->
  let x i := vcoord3 (RV3 a) i in let y i := vcoord3 (RV3 b) i in
  let (i, j) := match d with D3X => (D3Y, D3Z) | D3Y => (D3Z, D3X) | D3Z => (D3X, D3Y) end in
  Rabs (real_of (vcoord3 (v3_cross a b) d) - (x i * y j - x j * y i)) <=
  ((1 + unit_roundoff A) ^ 2 - 1) * (Rabs (x i) * Rabs (y j) + Rabs (x j) * Rabs (y i)) + 2 * min_subnormal A.
Proof.
  intros A a b d H. cbv zeta. destruct d; (eapply Apx_bound; [|exact (Apx_diff2 _ _ _ _ H)|]; [lia | lra]).
Qed.
Lemma C59_ray_at_accurate_2d_pf : forall (A : arith) (r : Ray2 (num A)) (s : num A) (d : Dimension2), Finite (coord2 (r2_at r s) d) ->
  let o := coord2 (RP2 (r2_origin r)) d in let v := vcoord2 (RV2 (r2_direction r)) d in
  Rabs (real_of (coord2 (r2_at r s) d) - (o + v * real_of s)) <=
  ((1 + unit_roundoff A) ^ 2 - 1) * (Rabs o + Rabs v * Rabs (real_of s)) + min_subnormal A.
Proof.
  intros A r s d H. cbv zeta.
  assert (K : forall o v : num A, Finite (sadd o (smul v s)) -> Rabs (real_of (sadd o (smul v s)) - (real_of o + real_of v * real_of s)) <=
    ((1 + unit_roundoff A) ^ 2 - 1) * (Rabs (real_of o) + Rabs (real_of v) * Rabs (real_of s)) + min_subnormal A).
  { intros o v F. eapply Apx_bound; [|apply (Apx_add o _ _ _ _ _ 1 0 (min_subnormal A / 2) F); [|apply Apx_mul1] |]; [lia | intros F'; apply Apx_weaken with 0%nat 0; [now apply Apx_leaf | lia | lra] | lra]. }
  destruct d; apply K; exact H.
Qed.
Lemma C59_ray_at_accurate_3d_pf : forall (A : arith) (r : Ray3 (num A)) (s : num A) (d : Dimension3), Finite (coord3 (r3_at r s) d) ->
  let o := coord3 (RP3 (r3_origin r)) d in let v := vcoord3 (RV3 (r3_direction r)) d in
  Rabs (real_of (coord3 (r3_at r s) d) - (o + v * real_of s)) <=
  ((1 + unit_roundoff A) ^ 2 - 1) * (Rabs o + Rabs v * Rabs (real_of s)) + min_subnormal A.
Proof.
  intros A r s d H. cbv zeta.
  assert (K : forall o v : num A, Finite (sadd o (smul v s)) -> Rabs (real_of (sadd o (smul v s)) - (real_of o + real_of v * real_of s)) <=
    ((1 + unit_roundoff A) ^ 2 - 1) * (Rabs (real_of o) + Rabs (real_of v) * Rabs (real_of s)) + min_subnormal A).
  { intros o v F. eapply Apx_bound; [|apply (Apx_add o _ _ _ _ _ 1 0 (min_subnormal A / 2) F); [|apply Apx_mul1] |]; [lia | intros F'; apply Apx_weaken with 0%nat 0; [now apply Apx_leaf | lia | lra] | lra]. }
  destruct d; apply K; exact H.
Qed.
Lemma C59_matrix_product_accurate_3x3_pf : forall (A : arith) (prof : profile) (a b : Matrix3x3 (num A)) (r c : N) (x : num A), (r < 3)%N -> (c < 3)%N ->
  m3_get prof (m3_mul a b) r c = Ret x -> Finite x ->
  let P := ent3 (RM3 a) in let Q := ent3 (RM3 b) in
  Rabs (real_of x - mat_mul 3 P Q (N.to_nat r) (N.to_nat c)) <=
  ((1 + unit_roundoff A) ^ 3 - 1) * mat_mul 3 (mat_abs P) (mat_abs Q) (N.to_nat r) (N.to_nat c) + 3 * min_subnormal A.
Proof.
  intros A prof a b r c x Hr Hc G F. cbv zeta.
  assert (R' : r = 0%N \/ r = 1%N \/ r = 2%N) by lia. assert (C' : c = 0%N \/ c = 1%N \/ c = 2%N) by lia.
  destruct prof as [[] []], R' as [->|[->| ->]], C' as [->|[->| ->]]; cbn in G; injection G as <-;
  (unfold mat_mul, mat_abs; cbn -[pow]; rewrite !Rplus_0_l; eapply Apx_bound; [|exact (Apx_dot3 _ _ _ _ _ _ F)|]; [lia | lra]).
Qed.
Lemma C59_matrix_product_accurate_4x4_pf : forall (A : arith) (prof : profile) (a b : Matrix4x4 (num A)) (r c : N) (x : num A), (r < 4)%N -> (c < 4)%N ->
  m4_get prof (m4_mul a b) r c = Ret x -> Finite x ->
  let P := ent4 (RM4 a) in let Q := ent4 (RM4 b) in
  Rabs (real_of x - mat_mul 4 P Q (N.to_nat r) (N.to_nat c)) <=
  ((1 + unit_roundoff A) ^ 4 - 1) * mat_mul 4 (mat_abs P) (mat_abs Q) (N.to_nat r) (N.to_nat c) + 4 * min_subnormal A.
Proof.
  intros A prof a b r c x Hr Hc G F. cbv zeta.
  assert (R' : r = 0%N \/ r = 1%N \/ r = 2%N \/ r = 3%N) by lia. assert (C' : c = 0%N \/ c = 1%N \/ c = 2%N \/ c = 3%N) by lia.
  destruct prof as [[] []], R' as [->|[->|[->| ->]]], C' as [->|[->|[->| ->]]]; cbn in G; injection G as <-;
  (unfold mat_mul, mat_abs; cbn -[pow]; rewrite !Rplus_0_l; eapply Apx_bound; [|exact (Apx_dot4 _ _ _ _ _ _ _ _ F)|]; [lia | lra]).
Qed.
Lemma C56_matrix_vector_accurate_2d_pf : forall (A : arith) (m : Matrix3x3 (num A)) (v : Vector2 (num A)) (d : Dimension2), Finite (vcoord2 (m3_mul_vector m v) d) ->
  let M := ent3 (RM3 m) in
  Rabs (real_of (vcoord2 (m3_mul_vector m v) d) - mat_apply 3 M (dir2 (RV2 v)) (dim2_index d)) <=
  ((1 + unit_roundoff A) ^ 2 - 1) * mat_apply 3 (mat_abs M) (dir2 (absV2 (RV2 v))) (dim2_index d) + 2 * min_subnormal A.
Proof.
  intros A m v d H. destruct d; (cbv zeta; unfold mat_apply, mat_abs; cbn -[pow]; rewrite !Rplus_0_l, !Rmult_0_r, !Rplus_0_r; eapply Apx_bound; [|exact (Apx_dot2 _ _ _ _ H)|]; [lia | lra]).
Qed.
Lemma C56_matrix_vector_accurate_3d_pf : forall (A : arith) (m : Matrix4x4 (num A)) (v : Vector3 (num A)) (d : Dimension3), Finite (vcoord3 (m4_mul_vector m v) d) ->
  let M := ent4 (RM4 m) in
  Rabs (real_of (vcoord3 (m4_mul_vector m v) d) - mat_apply 4 M (dir3 (RV3 v)) (dim3_index d)) <=
  ((1 + unit_roundoff A) ^ 3 - 1) * mat_apply 4 (mat_abs M) (dir3 (absV3 (RV3 v))) (dim3_index d) + 3 * min_subnormal A.
Proof.
  intros A m v d H. destruct d; (cbv zeta; unfold mat_apply, mat_abs; cbn -[pow]; rewrite !Rplus_0_l, !Rmult_0_r, !Rplus_0_r; eapply Apx_bound; [|exact (Apx_dot3 _ _ _ _ _ _ H)|]; [lia | lra]).
Qed.
Lemma Affine4_w {A : arith} (m : Matrix4x4 (num A)) (p : Point3 (num A)) : Affine4x4 m -> Finite3 p ->
  tx (sadd (sadd (sadd (smul (m4_12 m) (p3x p)) (smul (m4_13 m) (p3y p))) (smul (m4_14 m) (p3z p))) (m4_15 m)) = Fin 1.
Proof.
  intros (A0 & A1 & A2 & A3) F. finP3 F. apply Eqs_tx in A0, A1, A2, A3. rewrite tx_0 in A0, A1, A2. rewrite tx_1 in A3.
  rewrite !tx_add, !tx_mul, (proj1 A0), (proj1 A1), (proj1 A2), (proj1 A3), E, E0, E1. cbn [xmul]. rewrite !Rmult_0_l, !xr_0. cbn [xadd].
  rewrite !Rplus_0_l, !xr_0. cbn [xadd]. rewrite !Rplus_0_l, !xr_0. cbn [xadd]. rewrite Rplus_0_l. apply xr_1.
Qed.
Lemma Affine3_w {A : arith} (m : Matrix3x3 (num A)) (p : Point2 (num A)) : Affine3x3 m -> Finite2 p ->
  tx (sadd (sadd (smul (m3_6 m) (p2x p)) (smul (m3_7 m) (p2y p))) (m3_8 m)) = Fin 1.
Proof.
  intros (A0 & A1 & A3) F. finP2 F. apply Eqs_tx in A0, A1, A3. rewrite tx_0 in A0, A1. rewrite tx_1 in A3.
  rewrite !tx_add, !tx_mul, (proj1 A0), (proj1 A1), (proj1 A3), E, E0. cbn [xmul]. rewrite !Rmult_0_l, !xr_0. cbn [xadd].
  rewrite !Rplus_0_l, !xr_0. cbn [xadd]. rewrite Rplus_0_l. apply xr_1.
Qed.
Lemma C56_matrix_point_accurate_2d_pf : forall (A : arith) (m : Matrix3x3 (num A)) (p : Point2 (num A)) (d : Dimension2), Affine3x3 m -> Finite2 p ->
  Finite (coord2 (m3_mul_point m p) d) ->
  let M := ent3 (RM3 m) in
  Rabs (real_of (coord2 (m3_mul_point m p) d) - mat_apply 3 M (hom2 (RP2 p)) (dim2_index d)) <=
  ((1 + unit_roundoff A) ^ 3 - 1) * mat_apply 3 (mat_abs M) (hom2 (absP2 (RP2 p))) (dim2_index d) + 2 * min_subnormal A.
Proof.
  intros A m p d Af Fp H. pose proof (Affine3_w m p Af Fp) as W.
  assert (D : forall x : num A, Finite (sdiv x (sadd (sadd (smul (m3_6 m) (p2x p)) (smul (m3_7 m) (p2y p))) (m3_8 m))) ->
    Finite x /\ real_of (sdiv x (sadd (sadd (smul (m3_6 m) (p2x p)) (smul (m3_7 m) (p2y p))) (m3_8 m))) = real_of x).
  { intros x Fx. destruct (real_of_eq _ _ (div_1 x _ W)) as [E1 E2]. tauto. }
  destruct d; (cbv zeta; unfold mat_apply, mat_abs; cbn [coord2 m3_mul_point p2_new p2x p2y] in *; destruct (D _ H) as [H' ->];
    cbn -[pow]; rewrite !Rplus_0_l, !Rmult_1_r; eapply Apx_bound; [|apply Apx_plus; [exact H' | apply Apx_dot2]|]; [lia | lra]).
Qed.
Lemma C56_matrix_point_accurate_3d_pf : forall (A : arith) (m : Matrix4x4 (num A)) (p : Point3 (num A)) (d : Dimension3), Affine4x4 m -> Finite3 p ->
  Finite (coord3 (m4_mul_point m p) d) ->
  let M := ent4 (RM4 m) in
  Rabs (real_of (coord3 (m4_mul_point m p) d) - mat_apply 4 M (hom3 (RP3 p)) (dim3_index d)) <=
  ((1 + unit_roundoff A) ^ 4 - 1) * mat_apply 4 (mat_abs M) (hom3 (absP3 (RP3 p))) (dim3_index d) + 3 * min_subnormal A.
Proof.
  intros A m p d Af Fp H. pose proof (Affine4_w m p Af Fp) as W.
  set (w := sadd (sadd (sadd (smul (m4_12 m) (p3x p)) (smul (m4_13 m) (p3y p))) (smul (m4_14 m) (p3z p))) (m4_15 m)) in *.
  assert (D : forall x : num A, Finite (sdiv x w) -> Finite x /\ real_of (sdiv x w) = real_of x).
  { intros x Fx. destruct (real_of_eq _ _ (div_1 x _ W)) as [E1 E2]. tauto. }
  destruct d; (cbv zeta; unfold mat_apply, mat_abs; cbn [coord3 m4_mul_point p3_new p3x p3y p3z] in *; fold w in H; fold w; destruct (D _ H) as [H' ->];
    cbn -[pow]; rewrite !Rplus_0_l, !Rmult_1_r; eapply Apx_bound; [|apply Apx_plus; [exact H' | apply Apx_dot3]|]; [lia | lra]).
Qed.
Lemma t_le_uuu {A : arith} : min_subnormal A <= unit_roundoff A * unit_roundoff A * unit_roundoff A.
Proof.
  destruct A as [f P|]; cbn [min_subnormal unit_roundoff]; [|lra]. rewrite <- !bpow_plus. apply bpow_le. destruct f; cbn; lia.
Qed.
Lemma sq_rel (u t d D : R) : 0 <= u <= / 16777216 -> 0 <= D -> 0 <= t -> t <= u * d -> Rabs (d - D) <= ((1 + u) ^ 3 - 1) * D + 3 * t -> Rabs (d - D) <= 13 / 2 * u * D.
Proof.
  intros U PD PT T E. assert (G : (1 + u) ^ 3 - 1 <= 13 / 4 * u) by (cbn; nra).
  assert (E' : Rabs (d - D) <= 13 / 4 * u * D + 3 * (u * d)). { eapply Rle_trans; [exact E|]. apply Rplus_le_compat; [now apply Rmult_le_compat_r | lra]. }
  assert (d <= 101 / 100 * D).
  { pose proof (Rle_abs (d - D)) as Q. assert (u * d <= / 16777216 * d \/ d <= 0) as [H|H] by (destruct (Rle_or_lt d 0); [now right | left; apply Rmult_le_compat_r; lra]); [|lra].
    assert (13 / 4 * u * D <= 13 / 4 * / 16777216 * D) by (apply Rmult_le_compat_r; lra). lra. }
  assert (u * d <= u * (101 / 100 * D)) by (apply Rmult_le_compat_l; lra). assert (0 <= u * D) by (apply Rmult_le_pos; lra). lra.
Qed.
Lemma sqrt_rel (u d D : R) : 0 <= u <= / 16777216 -> 0 <= d -> 0 <= D -> Rabs (d - D) <= 13 / 2 * u * D -> Rabs (sqrt d - sqrt D) <= 7 / 2 * u * sqrt D.
Proof.
  intros U Pd PD E. pose proof (sqrt_sqrt d Pd) as Sa. pose proof (sqrt_sqrt D PD) as Sb. pose proof (sqrt_pos d) as Pa. pose proof (sqrt_pos D) as Pb.
  set (a := sqrt d) in *. set (b := sqrt D) in *.
  assert (L : 9 / 10 * b <= a).
  { destruct (Rle_or_lt (9 / 10 * b) a) as [H|H]; [assumption|]. exfalso.
    assert (a * a <= (9 / 10 * b) * (9 / 10 * b)) by (apply Rmult_le_compat; lra).
    assert (d <= 81 / 100 * D) by (rewrite <- Sa, <- Sb; lra).
    assert (13 / 2 * u * D <= 13 / 2 * / 16777216 * D) by (apply Rmult_le_compat_r; lra).
    rewrite Rabs_minus_sym in E. pose proof (Rle_abs (D - d)). assert (Z : D = 0) by lra. assert (b = 0) by (unfold b; rewrite Z; apply sqrt_0). lra. }
  destruct (Req_dec b 0) as [B|B].
  - assert (Z : D = 0) by (rewrite <- Sb, B; ring). rewrite Z in E. rewrite Rmult_0_r, Rminus_0_r, Rabs_pos_eq in E by assumption.
    assert (Zd : d = 0) by lra. assert (Za : a = 0) by (unfold a; rewrite Zd; apply sqrt_0). rewrite Za, B, Rmult_0_r, Rminus_0_r, Rabs_R0. lra.
  - assert (Q : Rabs (a - b) * (a + b) <= 13 / 2 * u * (b * b)).
    { rewrite <- (Rabs_pos_eq (a + b)) by lra. rewrite <- Rabs_mult. replace ((a - b) * (a + b)) with (a * a - b * b) by ring. rewrite Sa, Sb. exact E. }
    pose proof (Rabs_pos (a - b)) as P0.
    assert (Rabs (a - b) * (19 / 10 * b) <= Rabs (a - b) * (a + b)) by (apply Rmult_le_compat_l; lra).
    apply Rmult_le_reg_r with (19 / 10 * b); [lra|]. assert (0 <= u * b * b) by (apply Rmult_le_pos; [apply Rmult_le_pos|]; lra). lra.
Qed.
Lemma round_rel (u s a b : R) : 0 <= u <= / 16777216 -> Rabs s <= u -> 0 <= b -> Rabs (a - b) <= 7 / 2 * u * b -> Rabs (a * (1 + s) - b) <= 5 * u * b.
Proof.
  intros U S B E. replace (a * (1 + s) - b) with ((a - b) * (1 + s) + b * s) by ring. eapply Rle_trans; [apply Rabs_triang|]. rewrite !Rabs_mult, (Rabs_pos_eq b B).
  assert (Rabs (1 + s) <= 1 + / 16777216). { eapply Rle_trans; [apply Rabs_triang|]. rewrite Rabs_R1. lra. }
  assert (Rabs (a - b) * Rabs (1 + s) <= 7 / 2 * u * b * (1 + / 16777216)) by (apply Rmult_le_compat; try apply Rabs_pos; assumption).
  assert (b * Rabs s <= b * u) by (apply Rmult_le_compat_l; lra). assert (0 <= u * b) by (apply Rmult_le_pos; lra). lra.
Qed.
Lemma abs_sq r : Rabs r * Rabs r = r ^ 2.
Proof. rewrite <- Rabs_mult, Rabs_pos_eq by nra. ring. Qed.
Lemma Rnorm2_sq (a : Vector2 R) : Rdot2 a a = Rnorm2 a * Rnorm2 a /\ Rdot2 (absV2 a) (absV2 a) = Rdot2 a a /\ 0 <= Rdot2 a a /\ Rnorm2 a = sqrt (Rdot2 a a).
Proof.
  assert (P : 0 <= Rdot2 a a) by (unfold Rdot2; nra). assert (E : Rnorm2 a = sqrt (Rdot2 a a)) by (unfold Rnorm2, Rdot2; f_equal; ring).
  split; [rewrite E; symmetry; now apply sqrt_sqrt|]. split; [|auto]. unfold Rdot2, absV2; cbn [v2x v2y v3x v3y v3z]. rewrite !abs_sq. ring.
Qed.
Lemma dot2_real_nn {A : arith} (v : Vector2 (num A)) : Finite (v2_dot v v) -> 0 <= real_of (v2_dot v v).
Proof.
  intros F. pose proof (dot2_self_NotNeg v) as N. apply NotNeg_tx in N. rewrite (Finite_real _ F) in N. now apply nnx_fin in N.
Qed.
Lemma dot_finite_inv2 {A : arith} (v : Vector2 (num A)) : Finite (v2_dot v v) -> Finite (v2x v) /\ Finite (v2y v).
Proof. intros F. unfold v2_dot in F. destruct (err_add _ _ F) as (Fx & Fy & _). apply err_mul in Fx, Fy. tauto. Qed.
Lemma Rnorm3_sq (a : Vector3 R) : Rdot3 a a = Rnorm3 a * Rnorm3 a /\ Rdot3 (absV3 a) (absV3 a) = Rdot3 a a /\ 0 <= Rdot3 a a /\ Rnorm3 a = sqrt (Rdot3 a a).
Proof.
  assert (P : 0 <= Rdot3 a a) by (unfold Rdot3; nra). assert (E : Rnorm3 a = sqrt (Rdot3 a a)) by (unfold Rnorm3, Rdot3; f_equal; ring).
  split; [rewrite E; symmetry; now apply sqrt_sqrt|]. split; [|auto]. unfold Rdot3, absV3; cbn [v2x v2y v3x v3y v3z]. rewrite !abs_sq. ring.
Qed.
Lemma dot3_real_nn {A : arith} (v : Vector3 (num A)) : Finite (v3_dot v v) -> 0 <= real_of (v3_dot v v).
Proof.
  intros F. pose proof (dot3_self_NotNeg v) as N. apply NotNeg_tx in N. rewrite (Finite_real _ F) in N. now apply nnx_fin in N.
Qed.
Lemma dot_finite_inv3 {A : arith} (v : Vector3 (num A)) : Finite (v3_dot v v) -> Finite (v3x v) /\ Finite (v3y v) /\ Finite (v3z v).
Proof. intros F. unfold v3_dot in F. destruct (err_add _ _ F) as (Fxy & Fz & _). destruct (err_add _ _ Fxy) as (Fx & Fy & _). apply err_mul in Fx, Fy, Fz. tauto. Qed.
Lemma C55_length_accurate_2d_pf : forall (A : arith) (v : Vector2 (num A)), Finite (v2_dot v v) -> min_subnormal A <= unit_roundoff A * real_of (v2_dot v v) ->
  Finite (v2_length v) /\ Rabs (real_of (v2_length v) - Rnorm2 (RV2 v)) <= 5 * unit_roundoff A * Rnorm2 (RV2 v).
Proof.
  intros A v F T. pose proof (dot2_real_nn v F) as P. destruct (err_sqrt _ F P) as (F' & d & Hd & V). split; [exact F'|].
  change (v2_length v) with (ssqrt (v2_dot v v)). rewrite V. destruct (Rnorm2_sq (RV2 v)) as (_ & Q & PD & ->).
  pose proof (u_pos (A:=A)) as U. pose proof (t_pos (A:=A)) as T0. apply round_rel; try assumption; [apply sqrt_pos|]. apply sqrt_rel; try assumption.
  apply sq_rel with (min_subnormal A); try assumption. eapply Rle_trans; [exact (C54_dot_accurate_2d_pf A v v F)|]. rewrite Q.
  assert ((1 + unit_roundoff A) ^ 2 <= (1 + unit_roundoff A) ^ 3) by (apply Rle_pow; [lra|lia]).
  apply Rplus_le_compat; [apply Rmult_le_compat_r; lra | lra].
Qed.
Lemma C55_length_accurate_3d_pf : forall (A : arith) (v : Vector3 (num A)), Finite (v3_dot v v) -> min_subnormal A <= unit_roundoff A * real_of (v3_dot v v) ->
  Finite (v3_length v) /\ Rabs (real_of (v3_length v) - Rnorm3 (RV3 v)) <= 5 * unit_roundoff A * Rnorm3 (RV3 v).
Proof.
  intros A v F T. pose proof (dot3_real_nn v F) as P. destruct (err_sqrt _ F P) as (F' & d & Hd & V). split; [exact F'|].
  change (v3_length v) with (ssqrt (v3_dot v v)). rewrite V. destruct (Rnorm3_sq (RV3 v)) as (_ & Q & PD & ->).
  pose proof (u_pos (A:=A)) as U. pose proof (t_pos (A:=A)) as T0. apply round_rel; try assumption; [apply sqrt_pos|]. apply sqrt_rel; try assumption.
  apply sq_rel with (min_subnormal A); try assumption. eapply Rle_trans; [exact (C54_dot_accurate_3d_pf A v v F)|]. rewrite Q.
  assert ((1 + unit_roundoff A) ^ 3 <= (1 + unit_roundoff A) ^ 3) by (apply Rle_pow; [lra|lia]).
  apply Rplus_le_compat; [apply Rmult_le_compat_r; lra | lra].
Qed.
Lemma one_rel (u x y d : R) : 0 <= u <= / 16777216 -> Rabs d <= u -> y = x * (1 + d) -> (1 - u) ^ 2 * x ^ 2 <= y ^ 2 <= (1 + u) ^ 2 * x ^ 2.
Proof.
  intros U D ->. apply Rabs_le_inv in D. replace ((x * (1 + d)) ^ 2) with ((1 + d) ^ 2 * x ^ 2) by ring.
  assert (0 <= x ^ 2) by nra. split; apply Rmult_le_compat_r; try assumption; nra.
Qed.
Lemma sqrt_scale (k x : R) : 0 <= k -> 0 <= x -> sqrt (k ^ 2 * x) = k * sqrt x.
Proof. intros K X. rewrite sqrt_mult by nra. f_equal. replace (k ^ 2) with (k * k) by ring. now apply sqrt_square. Qed.
Lemma sqrt_between (u X Y : R) : 0 <= u <= / 16777216 -> 0 <= X -> (1 - u) ^ 2 * X <= Y <= (1 + u) ^ 2 * X -> Rabs (sqrt Y - sqrt X) <= u * sqrt X.
Proof.
  intros U X0 [L H]. assert (0 <= (1 - u) ^ 2 * X) by (apply Rmult_le_pos; nra).
  assert (0 <= Y) by lra. assert (0 <= (1 + u) ^ 2 * X) by lra. apply sqrt_le_1 in L; [|lra..]. apply sqrt_le_1 in H; [|lra..]. rewrite sqrt_scale in L, H by lra. apply Rabs_le. lra.
Qed.
Lemma dist_combine (u a b c : R) : 0 <= u <= / 16777216 -> 0 <= c -> Rabs (a - b) <= 5 * u * b -> Rabs (b - c) <= u * c -> Rabs (a - c) <= 7 * u * c.
Proof.
  intros U C E1 E2. replace (a - c) with ((a - b) + (b - c)) by ring. eapply Rle_trans; [apply Rabs_triang|].
  apply Rabs_le_inv in E2 as E3. assert (b <= (1 + / 16777216) * c) by nra.
  assert (5 * u * b <= 5 * u * ((1 + / 16777216) * c)) by (apply Rmult_le_compat_l; lra). assert (0 <= u * c) by (apply Rmult_le_pos; lra). lra.
Qed.
Lemma C55_distance_accurate_2d_pf : forall (A : arith) (p q : Point2 (num A)), let w := p2_sub q p in
  Finite (v2_dot w w) -> min_subnormal A <= unit_roundoff A * real_of (v2_dot w w) ->
  Finite (p2_distance p q) /\ Rabs (real_of (p2_distance p q) - Rdist2 (RP2 p) (RP2 q)) <= 7 * unit_roundoff A * Rdist2 (RP2 p) (RP2 q).
Proof.
  intros A p q w F T. destruct (C55_length_accurate_2d_pf A w F T) as [F' E]. split; [exact F'|]. pose proof (u_pos (A:=A)) as U.
  eapply dist_combine; [exact U | apply sqrt_pos | exact E |]. unfold Rnorm2, Rdist2. apply sqrt_between; [exact U | repeat apply Rplus_le_le_0_compat; apply pow2_ge_0 |].
  pose proof (dot_finite_inv2 w F) as FF. decompose [and] FF. unfold w in *. cbn [p2_sub v2_new v2x v2y v3x v3y v3z RV2 RP2 p2x p2y p3x p3y p3z] in *.
  repeat match goal with H : Finite (ssub _ _) |- _ => let d := fresh "d" in let Hd := fresh "Hd" in let V := fresh "V" in
    destruct (err_sub _ _ H) as (_ & _ & d & Hd & V); pose proof (one_rel _ _ _ _ U Hd V); clear H V end.
  repeat match goal with |- context [(real_of (?c p) - real_of (?c q)) ^ 2] => replace ((real_of (c p) - real_of (c q)) ^ 2) with ((real_of (c q) - real_of (c p)) ^ 2) by ring end.
  rewrite !Rmult_plus_distr_l. lra.
Qed.
Lemma C55_distance_accurate_3d_pf : forall (A : arith) (p q : Point3 (num A)), let w := p3_sub q p in
  Finite (v3_dot w w) -> min_subnormal A <= unit_roundoff A * real_of (v3_dot w w) ->
  Finite (p3_distance p q) /\ Rabs (real_of (p3_distance p q) - Rdist3 (RP3 p) (RP3 q)) <= 7 * unit_roundoff A * Rdist3 (RP3 p) (RP3 q).
Proof.
  intros A p q w F T. destruct (C55_length_accurate_3d_pf A w F T) as [F' E]. split; [exact F'|]. pose proof (u_pos (A:=A)) as U.
  eapply dist_combine; [exact U | apply sqrt_pos | exact E |]. unfold Rnorm3, Rdist3. apply sqrt_between; [exact U | repeat apply Rplus_le_le_0_compat; apply pow2_ge_0 |].
  pose proof (dot_finite_inv3 w F) as FF. decompose [and] FF. unfold w in *. cbn [p3_sub v3_new v2x v2y v3x v3y v3z RV3 RP3 p2x p2y p3x p3y p3z] in *.
  repeat match goal with H : Finite (ssub _ _) |- _ => let d := fresh "d" in let Hd := fresh "Hd" in let V := fresh "V" in
    destruct (err_sub _ _ H) as (_ & _ & d & Hd & V); pose proof (one_rel _ _ _ _ U Hd V); clear H V end.
  repeat match goal with |- context [(real_of (?c p) - real_of (?c q)) ^ 2] => replace ((real_of (c p) - real_of (c q)) ^ 2) with ((real_of (c q) - real_of (c p)) ^ 2) by ring end.
  rewrite !Rmult_plus_distr_l. lra.
Qed.
Lemma xr_small {A : arith} (r : R) : Rabs r <= 2 -> xr A (Fin r) = Fin (@arnd A r).
Proof.
  intros H. unfold arnd. destruct A as [f P|]; [|reflexivity]. cbn [xr]. apply Rabs_le_inv in H.
  assert (R2 : rnd f 2 = 2 /\ 2 < fmax_bound f).
  { destruct (repr_pow f 1 ltac:(lia)) as [Q B]. replace (bpow radix2 1) with 2 in * by (cbn; lra). rewrite Rabs_pos_eq in B by lra. split; [now apply rnd_repr | assumption]. }
  pose proof (rnd_mono f r 2 ltac:(lra)). pose proof (rnd_mono f (- r) 2 ltac:(lra)) as M. rewrite rnd_opp in M.
  destruct (xround_cases f r); [reflexivity | lra | lra].
Qed.
(* dividing a component by an approximate length *)
Lemma norm_comp (u t v l L s e : R) : 0 <= u <= / 16777216 -> 0 <= t -> 0 < L -> Rabs v <= L -> Rabs (l - L) <= 5 * u * L ->
  Rabs s <= u -> Rabs e <= t / 2 -> l <> 0 /\ Rabs (v / l) <= 2 /\ Rabs (v / l * (1 + s) + e - v / L) <= 61 / 10 * u * Rabs (v / L) + t / 2.
Proof.
  intros U T PL V E S H. apply Rabs_le_inv in E.
  assert (Hu : 5 * u * L <= / 1000 * L) by (apply Rmult_le_compat_r; lra).
  assert (Pl : 999 / 1000 * L <= l) by lra. assert (l <> 0) by lra. split; [assumption|].
  assert (Q : v / l = v / L * (L / l)) by (field; lra).
  assert (B : Rabs (L / l - 1) <= 501 / 100 * u).
  { replace (L / l - 1) with ((L - l) * / l) by (field; lra). rewrite Rabs_mult, (Rabs_pos_eq (/ l)) by (left; apply Rinv_0_lt_compat; lra).
    apply Rmult_le_reg_r with l; [lra|]. rewrite Rmult_assoc, Rinv_l, Rmult_1_r by lra. apply Rle_trans with (5 * u * L); [apply Rabs_le; lra|].
    assert (501 / 100 * u * (999 / 1000 * L) <= 501 / 100 * u * l) by (apply Rmult_le_compat_l; lra). assert (0 <= u * L) by (apply Rmult_le_pos; lra). lra. }
  assert (N : Rabs (v / L) <= 1).
  { unfold Rdiv. rewrite Rabs_mult, (Rabs_pos_eq (/ L)) by (left; apply Rinv_0_lt_compat; lra). apply Rmult_le_reg_r with L; [lra|]. rewrite Rmult_assoc, Rinv_l by lra. lra. }
  set (n := v / L) in *. set (k := L / l) in *. rewrite Q. apply Rabs_le_inv in B as B'.
  split. { rewrite Rabs_mult. replace 2 with (1 * 2) by ring. apply Rmult_le_compat; try apply Rabs_pos; [assumption|]. apply Rabs_le. lra. }
  replace (n * k * (1 + s) + e - n) with (n * ((k - 1) + k * s) + e) by ring. eapply Rle_trans; [apply Rabs_triang|]. rewrite Rabs_mult.
  apply Rplus_le_compat; [|assumption]. rewrite (Rmult_comm _ (Rabs n)). apply Rmult_le_compat_l; [apply Rabs_pos|].
  eapply Rle_trans; [apply Rabs_triang|]. rewrite Rabs_mult. assert (Rabs k <= 101 / 100) by (apply Rabs_le; lra).
  assert (Rabs k * Rabs s <= 101 / 100 * u) by (apply Rmult_le_compat; try apply Rabs_pos; assumption). lra.
Qed.
Lemma norm_comp2 (u t n m : R) : 0 <= u <= / 16777216 -> 0 <= t <= / 16777216 -> Rabs n <= 1 -> Rabs (m - n) <= 61 / 10 * u * Rabs n + t / 2 ->
  (1 - 61 / 10 * u) ^ 2 * n ^ 2 - (1 - 61 / 10 * u) * t <= m ^ 2 <= (1 + 61 / 10 * u) ^ 2 * n ^ 2 + (1 + 61 / 10 * u) * t + t * t.
Proof.
  intros U T N E. set (a := 61 / 10 * u) in *. assert (Ha : 0 <= a <= / 100) by (unfold a; lra). rewrite <- (pow2_abs n), <- (pow2_abs m).
  pose proof (Rabs_pos n) as N0. pose proof (Rabs_pos m) as M0.
  assert (U1 : Rabs m <= (1 + a) * Rabs n + t / 2). { replace m with ((m - n) + n) by ring. eapply Rle_trans; [apply Rabs_triang|]. lra. }
  assert (U2 : (1 - a) * Rabs n - t / 2 <= Rabs m). { assert (Rabs n <= Rabs (m - n) + Rabs m); [|lra]. rewrite (Rabs_minus_sym m n). replace n with ((n - m) + m) at 1 by ring. apply Rabs_triang. }
  set (x := Rabs n) in *. set (y := Rabs m) in *. split.
  - destruct (Rle_or_lt ((1 - a) * x) (t / 2)) as [K|K].
    + assert ((1 - a) * x * ((1 - a) * x) <= (1 - a) * x * (t / 2)) by (apply Rmult_le_compat_l; [apply Rmult_le_pos; lra | assumption]).
      assert ((1 - a) * x * (t / 2) <= (1 - a) * 1 * (t / 2)) by (apply Rmult_le_compat_r; [lra | apply Rmult_le_compat_l; lra]).
      assert (0 <= (1 - a) * t) by (apply Rmult_le_pos; lra). nra.
    + assert (S : ((1 - a) * x - t / 2) * ((1 - a) * x - t / 2) <= y * y) by (apply Rmult_le_compat; lra).
      assert ((1 - a) * x * t <= (1 - a) * 1 * t) by (apply Rmult_le_compat_r; [lra | apply Rmult_le_compat_l; lra]). nra.
  - assert (S : y * y <= ((1 + a) * x + t / 2) * ((1 + a) * x + t / 2)) by (apply Rmult_le_compat; lra).
    assert ((1 + a) * x * t <= (1 + a) * 1 * t) by (apply Rmult_le_compat_r; [lra | apply Rmult_le_compat_l; lra]). nra.
Qed.
Lemma norm_final (u t s : R) : 0 <= u <= / 16777216 -> 0 <= t -> t <= u * u * u -> 0 <= s ->
  (1 - 61 / 10 * u) ^ 2 - 3 * ((1 - 61 / 10 * u) * t) <= s <= (1 + 61 / 10 * u) ^ 2 + 3 * ((1 + 61 / 10 * u) * t + t * t) -> Rabs (sqrt s - 1) <= 8 * u.
Proof.
  intros U T TU S [L H].
  assert (K : t <= / 1000 * u). { eapply Rle_trans; [exact TU|]. apply Rmult_le_compat_r; [lra|]. nra. }
  assert (L' : (1 - 8 * u) * (1 - 8 * u) <= s). { assert (0 <= (61 / 10 * u) * t) by (apply Rmult_le_pos; lra). nra. }
  assert (H' : s <= (1 + 8 * u) * (1 + 8 * u)). { assert ((1 + 61 / 10 * u) * t <= 2 * t) by (apply Rmult_le_compat_r; lra). nra. }
  apply sqrt_le_1 in L'; [|nra..]. apply sqrt_le_1 in H'; [|nra..]. rewrite sqrt_square in L', H' by lra. apply Rabs_le. lra.
Qed.
Lemma comp_le_norm2 (v : Vector2 R) (d : Dimension2) : Rabs (vcoord2 v d) <= Rnorm2 v.
Proof. rewrite <- (sqrt_square (Rabs (vcoord2 v d))) by apply Rabs_pos. rewrite abs_sq. unfold Rnorm2. destruct d; cbn [vcoord2]; apply sqrt_le_1; nra. Qed.
Lemma comp_le_norm3 (v : Vector3 R) (d : Dimension3) : Rabs (vcoord3 v d) <= Rnorm3 v.
Proof. rewrite <- (sqrt_square (Rabs (vcoord3 v d))) by apply Rabs_pos. rewrite abs_sq. unfold Rnorm3. destruct d; cbn [vcoord3]; apply sqrt_le_1; nra. Qed.
Lemma C24_normalize_accurate_2d_pf : forall (A : arith) (v : Vector2 (num A)), Finite (v2_dot v v) -> min_subnormal A <= unit_roundoff A * real_of (v2_dot v v) ->
  0 < Rnorm2 (RV2 v) ->
  VFinite2 (v2_normalize v) /\
  (forall d, let n := vcoord2 (RV2 v) d / Rnorm2 (RV2 v) in
     Rabs (vcoord2 (RV2 (v2_normalize v)) d - n) <= 7 * unit_roundoff A * Rabs n + min_subnormal A) /\
  Rabs (Rnorm2 (RV2 (v2_normalize v)) - 1) <= 8 * unit_roundoff A.
Proof.
  intros A v F T P. destruct (C55_length_accurate_2d_pf A v F T) as [Fl E]. pose proof (u_pos (A:=A)) as U. pose proof (t_pos (A:=A)) as T0. pose proof (t_le_uuu (A:=A)) as TU.
  set (L := Rnorm2 (RV2 v)) in *. set (u := unit_roundoff A) in *. set (t := min_subnormal A) in *.
  assert (FV : VFinite2 v). { pose proof (dot_finite_inv2 v F) as FF. intros []; cbn; tauto. }
  assert (K : forall d, Finite (vcoord2 (v2_normalize v) d) /\ Rabs (vcoord2 (RV2 (v2_normalize v)) d - vcoord2 (RV2 v) d / L) <= 61 / 10 * u * Rabs (vcoord2 (RV2 v) d / L) + t / 2).
  { intros d. assert (Q : vcoord2 (v2_normalize v) d = sdiv (vcoord2 v d) (v2_length v)) by (destruct d; reflexivity).
    assert (Q1 : forall w : Vector2 (num A), vcoord2 (RV2 w) d = real_of (vcoord2 w d)) by (intros; destruct d; reflexivity).
    pose proof (comp_le_norm2 (RV2 v) d) as C. fold L in C. rewrite !Q1 in *. rewrite Q.
    assert (Z : Rabs 0 <= u /\ Rabs 0 <= t / 2) by (rewrite Rabs_R0; lra).
    destruct (norm_comp u t _ _ L 0 0 U T0 P C E (proj1 Z) (proj2 Z)) as (N0 & B2 & _).
    assert (Fd : Finite (sdiv (vcoord2 v d) (v2_length v))).
    { rewrite Finite_tx, tx_div by (rewrite (Finite_real _ Fl); congruence). rewrite (Finite_real _ Fl), (Finite_real _ (FV d)). cbn [xdiv]. rewrite Req_bool_false by assumption.
      rewrite xr_small by assumption. eauto. }
    split; [exact Fd|]. destruct (err_div _ _ Fd Fl N0) as (_ & s & e & Hs & He & V). rewrite V.
    now destruct (norm_comp u t (real_of (vcoord2 v d)) _ L s e U T0 P C E Hs He). }
  split; [intros d; apply K|]. split.
  - intros d. cbv zeta. eapply Rle_trans; [apply K|]. pose proof (Rabs_pos (vcoord2 (RV2 v) d / L)). assert (0 <= u * Rabs (vcoord2 (RV2 v) d / L)) by (apply Rmult_le_pos; lra). lra.
  - assert (S1 : (vcoord2 (RV2 v) D2X / L) ^ 2 + (vcoord2 (RV2 v) D2Y / L) ^ 2 = 1).
    { unfold L, Rnorm2. set (q := v2x (RV2 v) ^ 2 + v2y (RV2 v) ^ 2) in *. assert (Pq : 0 < q). { unfold L, Rnorm2 in P. fold q in P. apply sqrt_lt_0_alt. rewrite sqrt_0. exact P. }
      assert (Sq : sqrt q <> 0) by (assert (0 < sqrt q) by (now apply sqrt_lt_R0); lra). assert (SS : sqrt q * sqrt q = q) by (apply sqrt_sqrt; lra).
      unfold vcoord2. apply Rmult_eq_reg_r with (sqrt q * sqrt q); [|rewrite SS; lra]. transitivity q; [unfold q; field; assumption | rewrite SS; ring]. }
    assert (B : forall d, Rabs (vcoord2 (RV2 v) d / L) <= 1).
    { intros d. pose proof (comp_le_norm2 (RV2 v) d) as C. fold L in C. unfold Rdiv. rewrite Rabs_mult, (Rabs_pos_eq (/ L)) by (left; apply Rinv_0_lt_compat; lra).
      apply Rmult_le_reg_r with L; [lra|]. rewrite Rmult_assoc, Rinv_l by lra. lra. }
    assert (T1 : 0 <= t <= / 16777216) by (split; [lra|]; nra).
    assert (N2 := fun d => norm_comp2 u t _ _ U T1 (B d) (proj2 (K d))). unfold Rnorm2. apply norm_final with t; try assumption; [repeat apply Rplus_le_le_0_compat; apply pow2_ge_0|].
    pose proof (N2 D2X) as NX. pose proof (N2 D2Y) as NY. cbn [vcoord2] in *.
    set (a := (1 - 61 / 10 * u) ^ 2) in *. set (a' := (1 + 61 / 10 * u) ^ 2) in *.
    assert (0 <= (1 - 61 / 10 * u) * t) by (apply Rmult_le_pos; lra). assert (0 <= (1 + 61 / 10 * u) * t) by (apply Rmult_le_pos; lra). assert (0 <= t * t) by (apply Rmult_le_pos; lra).
    apply (f_equal (Rmult a)) in S1 as S2. apply (f_equal (Rmult a')) in S1 as S3. rewrite !Rmult_plus_distr_l in S2, S3. lra.
Qed.
Lemma C24_normalize_accurate_3d_pf : forall (A : arith) (v : Vector3 (num A)), Finite (v3_dot v v) -> min_subnormal A <= unit_roundoff A * real_of (v3_dot v v) ->
  0 < Rnorm3 (RV3 v) ->
  VFinite3 (v3_normalize v) /\
  (forall d, let n := vcoord3 (RV3 v) d / Rnorm3 (RV3 v) in
     Rabs (vcoord3 (RV3 (v3_normalize v)) d - n) <= 7 * unit_roundoff A * Rabs n + min_subnormal A) /\
  Rabs (Rnorm3 (RV3 (v3_normalize v)) - 1) <= 8 * unit_roundoff A.
Proof.
  intros A v F T P. destruct (C55_length_accurate_3d_pf A v F T) as [Fl E]. pose proof (u_pos (A:=A)) as U. pose proof (t_pos (A:=A)) as T0. pose proof (t_le_uuu (A:=A)) as TU.
  set (L := Rnorm3 (RV3 v)) in *. set (u := unit_roundoff A) in *. set (t := min_subnormal A) in *.
  assert (FV : VFinite3 v). { pose proof (dot_finite_inv3 v F) as FF. intros []; cbn; tauto. }
  assert (K : forall d, Finite (vcoord3 (v3_normalize v) d) /\ Rabs (vcoord3 (RV3 (v3_normalize v)) d - vcoord3 (RV3 v) d / L) <= 61 / 10 * u * Rabs (vcoord3 (RV3 v) d / L) + t / 2).
  { intros d. assert (Q : vcoord3 (v3_normalize v) d = sdiv (vcoord3 v d) (v3_length v)) by (destruct d; reflexivity).
    assert (Q1 : forall w : Vector3 (num A), vcoord3 (RV3 w) d = real_of (vcoord3 w d)) by (intros; destruct d; reflexivity).
    pose proof (comp_le_norm3 (RV3 v) d) as C. fold L in C. rewrite !Q1 in *. rewrite Q.
    assert (Z : Rabs 0 <= u /\ Rabs 0 <= t / 2) by (rewrite Rabs_R0; lra).
    destruct (norm_comp u t _ _ L 0 0 U T0 P C E (proj1 Z) (proj2 Z)) as (N0 & B2 & _).
    assert (Fd : Finite (sdiv (vcoord3 v d) (v3_length v))).
    { rewrite Finite_tx, tx_div by (rewrite (Finite_real _ Fl); congruence). rewrite (Finite_real _ Fl), (Finite_real _ (FV d)). cbn [xdiv]. rewrite Req_bool_false by assumption.
      rewrite xr_small by assumption. eauto. }
    split; [exact Fd|]. destruct (err_div _ _ Fd Fl N0) as (_ & s & e & Hs & He & V). rewrite V.
    now destruct (norm_comp u t (real_of (vcoord3 v d)) _ L s e U T0 P C E Hs He). }
  split; [intros d; apply K|]. split.
  - intros d. cbv zeta. eapply Rle_trans; [apply K|]. pose proof (Rabs_pos (vcoord3 (RV3 v) d / L)). assert (0 <= u * Rabs (vcoord3 (RV3 v) d / L)) by (apply Rmult_le_pos; lra). lra.
  - assert (S1 : (vcoord3 (RV3 v) D3X / L) ^ 2 + (vcoord3 (RV3 v) D3Y / L) ^ 2 + (vcoord3 (RV3 v) D3Z / L) ^ 2 = 1).
    { unfold L, Rnorm3. set (q := v3x (RV3 v) ^ 2 + v3y (RV3 v) ^ 2 + v3z (RV3 v) ^ 2) in *. assert (Pq : 0 < q). { unfold L, Rnorm3 in P. fold q in P. apply sqrt_lt_0_alt. rewrite sqrt_0. exact P. }
      assert (Sq : sqrt q <> 0) by (assert (0 < sqrt q) by (now apply sqrt_lt_R0); lra). assert (SS : sqrt q * sqrt q = q) by (apply sqrt_sqrt; lra).
      unfold vcoord3. apply Rmult_eq_reg_r with (sqrt q * sqrt q); [|rewrite SS; lra]. transitivity q; [unfold q; field; assumption | rewrite SS; ring]. }
    assert (B : forall d, Rabs (vcoord3 (RV3 v) d / L) <= 1).
    { intros d. pose proof (comp_le_norm3 (RV3 v) d) as C. fold L in C. unfold Rdiv. rewrite Rabs_mult, (Rabs_pos_eq (/ L)) by (left; apply Rinv_0_lt_compat; lra).
      apply Rmult_le_reg_r with L; [lra|]. rewrite Rmult_assoc, Rinv_l by lra. lra. }
    assert (T1 : 0 <= t <= / 16777216) by (split; [lra|]; nra).
    assert (N2 := fun d => norm_comp2 u t _ _ U T1 (B d) (proj2 (K d))). unfold Rnorm3. apply norm_final with t; try assumption; [repeat apply Rplus_le_le_0_compat; apply pow2_ge_0|].
    pose proof (N2 D3X) as NX. pose proof (N2 D3Y) as NY. pose proof (N2 D3Z) as NZ. cbn [vcoord3] in *.
    set (a := (1 - 61 / 10 * u) ^ 2) in *. set (a' := (1 + 61 / 10 * u) ^ 2) in *.
    assert (0 <= (1 - 61 / 10 * u) * t) by (apply Rmult_le_pos; lra). assert (0 <= (1 + 61 / 10 * u) * t) by (apply Rmult_le_pos; lra). assert (0 <= t * t) by (apply Rmult_le_pos; lra).
    apply (f_equal (Rmult a)) in S1 as S2. apply (f_equal (Rmult a')) in S1 as S3. rewrite !Rmult_plus_distr_l in S2, S3. lra.
Qed.
Lemma Le_real {A : arith} (x y : num A) : Finite x -> Finite y -> Le x y -> real_of x <= real_of y.
Proof. intros Fx Fy. rewrite Le_tx, (Finite_real _ Fx), (Finite_real _ Fy). apply xle_fin. Qed.
Lemma real_of_1 {A : arith} : Finite (sone : num A) /\ real_of (sone : num A) = 1.
Proof. apply Finite_intro. apply tx_1. Qed.
Lemma dot_ge_1_ok {A : arith} (x : num A) : Finite x -> Le sone x -> min_subnormal A <= unit_roundoff A * real_of x.
Proof.
  intros F L. destruct (@real_of_1 A) as [F1 V1]. apply Le_real in L; [|assumption..]. rewrite V1 in L. pose proof (@t_le_uuu A) as T. pose proof (@u_pos A) as U.
  eapply Rle_trans; [exact T|]. rewrite Rmult_assoc. apply Rmult_le_compat_l; [lra|]. nra.
Qed.
