(** Proofs: magnitudes without overflow (C89). *)
From Coq Require Import Bool NArith ZArith Reals List Lra Lia.
From Flocq Require Import Core.Zaux Core.Raux Core.Defs Core.Generic_fmt Core.FLT IEEE754.BinarySingleNaN.
From Verif Require Import Scalar Types Vector2 Vector3 Point2 Point3 Ray BoundingBox2 BoundingBox3 Transform2 Transform3 Float
  XReal OrdLaws Arith SpecOrder SpecFloat SpecReal SpecErr SpecRange OrderProofs FloatX XArith FloatLaws ErrBase FloatErr FloatBig FloatMono FloatTrans FloatAxis FloatInv FloatPerm FloatChain ExVals.
Import ListNotations.
Local Open Scope R_scope.
Section A.
Context {A : arith}.
Implicit Types x y : num A.
Lemma fits_le i j : fits A j -> (i <= j)%Z -> fits A i.
Proof. exact (okexp_le A i j). Qed.
Lemma Mag_le i j x : Mag i x -> (i <= j)%Z -> Mag j x.
Proof. exact (Bk_le i j x). Qed.
Lemma Mag_mul i j x y : (0 <= i)%Z -> (0 <= j)%Z -> Mag i x -> Mag j y -> fits A (i + j) -> Mag (i + j) (smul x y).
Proof. intros I J X Y K. apply (Bk_mul i j x y X Y); [lia | exact K]. Qed.
Lemma Mag_add i x y : (0 <= i)%Z -> Mag i x -> Mag i y -> fits A (i + 1) -> Mag (i + 1) (sadd x y).
Proof. intros I X Y K. pose proof (Bk_add i i x y X Y) as H. rewrite Z.max_id in H. apply H; [lia | exact K]. Qed.
Lemma Mag_neg i x : Mag i x -> Mag i (sneg x).
Proof. exact (Bk_neg i x). Qed.
Lemma Mag_sub i x y : (0 <= i)%Z -> Mag i x -> Mag i y -> fits A (i + 1) -> Mag (i + 1) (ssub x y).
Proof. intros I X Y K. pose proof (Bk_sub i i x y X Y) as H. rewrite Z.max_id in H. apply H; [lia | exact K]. Qed.
Lemma Mag_sqrt i x : Mag (i + i) x -> 0 <= real_of x -> (0 <= i)%Z -> fits A i -> Mag i (ssqrt x).
Proof.
  intros [F B] P I K. pose proof (Finite_real x F) as E. assert (S : sqrt (real_of x) <= bpow radix2 i).
  { rewrite <- (sqrt_square (bpow radix2 i)) by apply bpow_ge_0. apply sqrt_le_1_alt. rewrite <- bpow_plus. rewrite Rabs_pos_eq in B by lra. exact B. }
  assert (S' : Rabs (sqrt (real_of x)) <= bpow radix2 i) by (rewrite Rabs_pos_eq; [exact S | apply sqrt_pos]).
  destruct (xr_pow A (sqrt (real_of x)) i I K S') as [E1 B1].
  assert (T : tx (ssqrt x) = Fin (@arnd A (sqrt (real_of x)))) by (rewrite tx_sqrt, E; cbn [xsqrt]; rewrite Rlt_bool_false by lra; exact E1).
  destruct (Finite_intro _ _ T) as [F' V]. split; [exact F'|]. now rewrite V.
Qed.
Lemma Mag_half : Mag 0 (shalf : num A).
Proof. destruct (Finite_intro (shalf : num A) _ tx_half) as [F V]. split; [exact F|]. rewrite V, Rabs_pos_eq by lra. cbn. lra. Qed.
Lemma Mag_two : Mag 1 (stwo : num A).
Proof. destruct (Finite_intro (stwo : num A) _ tx_2) as [F V]. split; [exact F|]. rewrite V, Rabs_pos_eq by lra. cbn. lra. Qed.
Lemma nn_real x : NotNeg x -> Finite x -> 0 <= real_of x.
Proof. intros N F. apply NotNeg_Le in N; [|rewrite NoNaN_tx, (Finite_real x F); discriminate]. rewrite Le_tx, tx_0, (Finite_real x F) in N. now apply xle_fin in N. Qed.
Lemma safe_sq x : Finite x -> Finite (smul x x) -> NotTooSmall (A:=A) (real_of x) -> min_subnormal A <= unit_roundoff A * real_of (smul x x) /\ 0 < real_of (smul x x).
Proof.
  intros F Fm N. destruct (err_mul x x Fm) as (_ & _ & d & e & Hd & He & V). rewrite V. apply Rabs_le_inv in Hd, He. clear V. set (r := real_of x) in *.
  pose proof (u_pos (A:=A)) as U. pose proof (t_pos (A:=A)) as T. revert N. unfold NotTooSmall. destruct A as [f P|]; cbn [unit_roundoff min_subnormal] in *; intros N.
  - set (b := bpow radix2 (- safe_exp f)) in *. assert (B : b * b <= r * r). { rewrite <- (Rabs_pos_eq (r * r)) by nra. rewrite Rabs_mult. assert (0 <= b) by apply bpow_ge_0. apply Rmult_le_compat; lra. }
    set (tt := bpow radix2 (3 - emax f - prec f)) in *. set (uu := bpow radix2 (- prec f)) in *.
    assert (E : b * b * / 2 * uu = tt). { unfold b, uu, tt. replace (/ 2) with (bpow radix2 (-1)) by (cbn; lra). rewrite <- !bpow_plus. f_equal. destruct f; reflexivity. }
    assert (0 < b * b) by (unfold b; rewrite <- bpow_plus; apply bpow_gt_0). assert (U0 : 0 < uu) by apply bpow_gt_0. 
    assert (LB : b * b * / 2 <= r * r * (1 + d) + e).
    { assert (tt <= b * b * / 2 * / 16777216) by (rewrite <- E; apply Rmult_le_compat_l; lra). assert (r * r * (1 - / 16777216) <= r * r * (1 + d)) by (apply Rmult_le_compat_l; lra). assert (b * b * (1 - / 16777216) <= r * r * (1 - / 16777216)) by (apply Rmult_le_compat_r; lra). lra. }
    split; [|lra]. rewrite <- E, (Rmult_comm uu). apply Rmult_le_compat_r; lra.
  - split; [lra|]. assert (0 < r * r) by (apply Rsqr_pos_lt in N; exact N). assert (d = 0) by lra. assert (e = 0) by lra. subst d e. lra.
Qed.
Lemma MX_mul i j x y : Mag i x -> Mag j y -> (0 <= i + j)%Z -> fits A (i + j) -> Mag (i + j) (smul x y).
Proof. exact (Bk_mul i j x y). Qed.
Lemma MX_add i j x y : Mag i x -> Mag j y -> (0 <= Z.max i j)%Z -> fits A (Z.max i j + 1) -> Mag (Z.max i j + 1) (sadd x y).
Proof. exact (Bk_add i j x y). Qed.
Lemma MX_sub i j x y : Mag i x -> Mag j y -> (0 <= Z.max i j)%Z -> fits A (Z.max i j + 1) -> Mag (Z.max i j + 1) (ssub x y).
Proof. exact (Bk_sub i j x y). Qed.
Lemma mat_in3 k (m : Matrix3x3 (num A)) : MMag3 k m -> Mag k (m3_0 m) /\ Mag k (m3_1 m) /\ Mag k (m3_2 m) /\ Mag k (m3_3 m) /\ Mag k (m3_4 m) /\ Mag k (m3_5 m) /\ Mag k (m3_6 m) /\ Mag k (m3_7 m) /\ Mag k (m3_8 m).
Proof. intros H. unfold MMag3 in H. rewrite Forall_forall in H. repeat split; apply H; cbn; tauto. Qed.
Lemma mat_in4 k (m : Matrix4x4 (num A)) : MMag4 k m -> Mag k (m4_0 m) /\ Mag k (m4_1 m) /\ Mag k (m4_2 m) /\ Mag k (m4_3 m) /\ Mag k (m4_4 m) /\ Mag k (m4_5 m) /\ Mag k (m4_6 m) /\ Mag k (m4_7 m) /\ Mag k (m4_8 m) /\ Mag k (m4_9 m) /\ Mag k (m4_10 m) /\ Mag k (m4_11 m) /\ Mag k (m4_12 m) /\ Mag k (m4_13 m) /\ Mag k (m4_14 m) /\ Mag k (m4_15 m).
Proof. intros H. unfold MMag4 in H. rewrite Forall_forall in H. repeat split; apply H; cbn; tauto. Qed.
Lemma mul_0_tx x y r : tx x = Fin 0 -> tx y = Fin r -> tx (smul x y) = Fin 0.
Proof. intros X Y. rewrite tx_mul, X, Y. cbn [xmul]. rewrite Rmult_0_l. apply xr_0'. Qed.
Lemma add_0_tx x y r : tx x = Fin 0 -> tx y = Fin r -> xr A (Fin r) = Fin r -> tx (sadd x y) = Fin r.
Proof. intros X Y K. rewrite tx_add, X, Y. rewrite xadd_0_l. exact K. Qed.
Lemma affine_w2 (m : Matrix3x3 (num A)) (p : Point2 (num A)) : Affine3x3 m -> Finite2 p -> tx (sadd (sadd (smul (m3_6 m) (p2x p)) (smul (m3_7 m) (p2y p))) (m3_8 m)) = Fin 1.
Proof.
  intros (E1 & E2 & E3) F. pose proof (Finite_real _ (F D2X)) as X. pose proof (Finite_real _ (F D2Y)) as Y. cbn in X, Y.
  apply Eqs_tx0 in E1, E2; apply Eqs_tx1 in E3.
  apply add_0_tx; [|assumption|apply xr_1']. apply add_0_tx; [| |apply xr_0']; eapply mul_0_tx; eassumption.
Qed.
Lemma affine_w3 (m : Matrix4x4 (num A)) (p : Point3 (num A)) : Affine4x4 m -> Finite3 p -> tx (sadd (sadd (sadd (smul (m4_12 m) (p3x p)) (smul (m4_13 m) (p3y p))) (smul (m4_14 m) (p3z p))) (m4_15 m)) = Fin 1.
Proof.
  intros (E1 & E2 & E3 & E4) F. pose proof (Finite_real _ (F D3X)) as X. pose proof (Finite_real _ (F D3Y)) as Y. pose proof (Finite_real _ (F D3Z)) as Z. cbn in X, Y, Z.
  apply Eqs_tx0 in E1, E2, E3; apply Eqs_tx1 in E4.
  apply add_0_tx; [|assumption|apply xr_1']. apply add_0_tx; [| |apply xr_0']; [|eapply mul_0_tx; eassumption]. apply add_0_tx; [| |apply xr_0']; eapply mul_0_tx; eassumption.
Qed.
End A.
Ltac leaf := first [eassumption | apply Mag_half | apply Mag_two | match goal with
    | H : VMag2 _ ?v |- Mag _ (v2x ?v) => exact (H D2X)
    | H : PMag2 _ ?v |- Mag _ (p2x ?v) => exact (H D2X)
    | H : VMag2 _ ?v |- Mag _ (v2y ?v) => exact (H D2Y)
    | H : PMag2 _ ?v |- Mag _ (p2y ?v) => exact (H D2Y)
    | H : VMag3 _ ?v |- Mag _ (v3x ?v) => exact (H D3X)
    | H : PMag3 _ ?v |- Mag _ (p3x ?v) => exact (H D3X)
    | H : VMag3 _ ?v |- Mag _ (v3y ?v) => exact (H D3Y)
    | H : PMag3 _ ?v |- Mag _ (p3y ?v) => exact (H D3Y)
    | H : VMag3 _ ?v |- Mag _ (v3z ?v) => exact (H D3Z)
    | H : PMag3 _ ?v |- Mag _ (p3z ?v) => exact (H D3Z)
    end].
Ltac mgi := lazymatch goal with
  | |- Mag _ (sadd _ _) => eapply MX_add; [mgi | mgi | |]
  | |- Mag _ (ssub _ _) => eapply MX_sub; [mgi | mgi | |]
  | |- Mag _ (smul _ _) => eapply MX_mul; [mgi | mgi | |]
  | |- Mag _ (sneg _) => apply Mag_neg; mgi
  | |- _ => leaf end.
Ltac mg := eapply Mag_le; [mgi|].
Ltac sides F := rewrite ?Z.max_id; try lia; try (eapply fits_le; [exact F | lia]).
Ltac splits := lazymatch goal with |- _ /\ _ => split; splits | |- _ => idtac end.
Lemma C89_sums_2d_pf : forall (A : arith) (k : Z) (p q : Point2 (num A)) (v w : Vector2 (num A)), (0 <= k)%Z -> PMag2 k p -> PMag2 k q -> VMag2 k v -> VMag2 k w -> fits A (k + 1) ->
  PMag2 (k + 1) (p2_add p v) /\ PMag2 (k + 1) (p2_sub_v p v) /\ VMag2 (k + 1) (p2_sub p q) /\ VMag2 (k + 1) (v2_add v w) /\ VMag2 (k + 1) (v2_sub v w).
Proof.
  intros A k p q v w K P Q V W F. split; [|split; [|split; [|split]]]; intros d; pose proof (P d); pose proof (Q d); pose proof (V d); pose proof (W d); destruct d; cbn in *; first [apply Mag_add | apply Mag_sub]; assumption.
Qed.
Lemma C89_sums_3d_pf : forall (A : arith) (k : Z) (p q : Point3 (num A)) (v w : Vector3 (num A)), (0 <= k)%Z -> PMag3 k p -> PMag3 k q -> VMag3 k v -> VMag3 k w -> fits A (k + 1) ->
  PMag3 (k + 1) (p3_add p v) /\ PMag3 (k + 1) (p3_sub_v p v) /\ VMag3 (k + 1) (p3_sub p q) /\ VMag3 (k + 1) (v3_add v w) /\ VMag3 (k + 1) (v3_sub v w).
Proof.
  intros A k p q v w K P Q V W F. split; [|split; [|split; [|split]]]; intros d; pose proof (P d); pose proof (Q d); pose proof (V d); pose proof (W d); destruct d; cbn in *; first [apply Mag_add | apply Mag_sub]; assumption.
Qed.
Lemma C89_dot_2d_pf : forall (A : arith) (i k : Z) (v w : Vector2 (num A)), (0 <= i)%Z -> (0 <= k)%Z -> VMag2 i v -> VMag2 k w -> fits A (i + k + 2 - 1) -> Mag (i + k + 2 - 1) (v2_dot v w).
Proof.
  intros A i k v w I K V W F. unfold v2_dot. mg; sides F.
Qed.
Lemma C89_dot_3d_pf : forall (A : arith) (i k : Z) (v w : Vector3 (num A)), (0 <= i)%Z -> (0 <= k)%Z -> VMag3 i v -> VMag3 k w -> fits A (i + k + 3 - 1) -> Mag (i + k + 3 - 1) (v3_dot v w).
Proof.
  intros A i k v w I K V W F. unfold v3_dot. mg; sides F.
Qed.
Lemma C89_length_2d_pf : forall (A : arith) (k : Z) (v : Vector2 (num A)), (0 <= k)%Z -> VMag2 k v -> fits A (2 * k + 2 - 1) -> Mag (k + 1) (v2_length v).
Proof.
  intros A k v K V F. unfold v2_length. assert (D : Mag (k + 1 + (k + 1)) (v2_dot v v)). { eapply Mag_le; [apply (C89_dot_2d_pf A k k v v K K V V); eapply fits_le; [exact F | lia] | lia]. }
  apply Mag_sqrt; [exact D | | lia | eapply fits_le; [exact F | lia]]. apply nn_real; [|apply D]. unfold v2_dot. repeat apply add_NotNeg; apply sqr_NotNeg.
Qed.
Lemma C89_length_3d_pf : forall (A : arith) (k : Z) (v : Vector3 (num A)), (0 <= k)%Z -> VMag3 k v -> fits A (2 * k + 3 - 1) -> Mag (k + 1) (v3_length v).
Proof.
  intros A k v K V F. unfold v3_length. assert (D : Mag (k + 1 + (k + 1)) (v3_dot v v)). { eapply Mag_le; [apply (C89_dot_3d_pf A k k v v K K V V); eapply fits_le; [exact F | lia] | lia]. }
  apply Mag_sqrt; [exact D | | lia | eapply fits_le; [exact F | lia]]. apply nn_real; [|apply D]. unfold v3_dot. repeat apply add_NotNeg; apply sqr_NotNeg.
Qed.
Lemma C89_distance_2d_pf : forall (A : arith) (k : Z) (p q : Point2 (num A)), (0 <= k)%Z -> PMag2 k p -> PMag2 k q -> fits A (2 * k + 3) -> Mag (k + 2) (p2_distance p q).
Proof.
  intros A k p q K P Q F. unfold p2_distance. replace (k + 2)%Z with (k + 1 + 1)%Z by lia. apply C89_length_2d_pf; [lia | | eapply fits_le; [exact F | lia]].
  intros d. rewrite dsub2. apply Mag_sub; auto. eapply fits_le; [exact F | lia].
Qed.
Lemma C89_distance_3d_pf : forall (A : arith) (k : Z) (p q : Point3 (num A)), (0 <= k)%Z -> PMag3 k p -> PMag3 k q -> fits A (2 * k + 4) -> Mag (k + 2) (p3_distance p q).
Proof.
  intros A k p q K P Q F. unfold p3_distance. replace (k + 2)%Z with (k + 1 + 1)%Z by lia. apply C89_length_3d_pf; [lia | | eapply fits_le; [exact F | lia]].
  intros d. rewrite dsub3. apply Mag_sub; auto. eapply fits_le; [exact F | lia].
Qed.
Lemma C89_cross_pf : forall (A : arith) (i k : Z) (v w : Vector3 (num A)), (0 <= i)%Z -> (0 <= k)%Z -> VMag3 i v -> VMag3 k w -> fits A (i + k + 1) -> VMag3 (i + k + 1) (v3_cross v w).
Proof.
  intros A i k v w I K V W F d. unfold v3_cross, v3_new. destruct d; cbn [vcoord3 v3x v3y v3z]; mg; sides F.
Qed.
Lemma C89_ray_at_2d_pf : forall (A : arith) (i k : Z) (r : Ray2 (num A)) (t : num A), (0 <= i)%Z -> (0 <= k)%Z -> PMag2 (i + k) (r2_origin r) -> VMag2 i (r2_direction r) -> Mag k t -> fits A (i + k + 1) ->
  PMag2 (i + k + 1) (r2_at r t).
Proof.
  intros A i k r t I K O D T F d. unfold r2_at, p2_add, v2_mul, p2_new, v2_new. destruct d; cbn [coord2 p2x p2y v2x v2y]; mg; sides F.
Qed.
Lemma C89_ray_at_3d_pf : forall (A : arith) (i k : Z) (r : Ray3 (num A)) (t : num A), (0 <= i)%Z -> (0 <= k)%Z -> PMag3 (i + k) (r3_origin r) -> VMag3 i (r3_direction r) -> Mag k t -> fits A (i + k + 1) ->
  PMag3 (i + k + 1) (r3_at r t).
Proof.
  intros A i k r t I K O D T F d. unfold r3_at, p3_add, v3_mul, p3_new, v3_new. destruct d; cbn [coord3 p3x p3y p3z v3x v3y v3z]; mg; sides F.
Qed.
Lemma C89_matrix_vector_2d_pf : forall (A : arith) (i k : Z) (m : Matrix3x3 (num A)) (v : Vector2 (num A)), (0 <= i)%Z -> (0 <= k)%Z -> MMag3 i m -> VMag2 k v -> fits A (i + k + 2 - 1) -> VMag2 (i + k + 2 - 1) (m3_mul_vector m v).
Proof.
  intros A i k m v I K M V F d. apply mat_in3 in M. decompose [and] M. clear M. unfold m3_mul_vector, v2_new. destruct d; cbn [vcoord2 p2x p2y v2x v2y]; mg; sides F.
Qed.
Lemma C89_matrix_vector_3d_pf : forall (A : arith) (i k : Z) (m : Matrix4x4 (num A)) (v : Vector3 (num A)), (0 <= i)%Z -> (0 <= k)%Z -> MMag4 i m -> VMag3 k v -> fits A (i + k + 3 - 1) -> VMag3 (i + k + 3 - 1) (m4_mul_vector m v).
Proof.
  intros A i k m v I K M V F d. apply mat_in4 in M. decompose [and] M. clear M. unfold m4_mul_vector, v3_new. destruct d; cbn [vcoord3 p3x p3y p3z v3x v3y v3z]; mg; sides F.
Qed.
Lemma C89_affine_point_2d_pf : forall (A : arith) (i k : Z) (m : Matrix3x3 (num A)) (p : Point2 (num A)), Affine3x3 m -> (0 <= i)%Z -> (0 <= k)%Z -> MMag3 i m -> PMag2 k p -> fits A (i + k + 2) -> PMag2 (i + k + 2) (m3_mul_point m p).
Proof.
  intros A i k m p AF I K M P F d. apply mat_in3 in M. decompose [and] M. clear M.
  assert (W : forall w : num A, tx w = Fin 1 -> forall x, Mag (i + k + 2) x -> Mag (i + k + 2) (sdiv x w)).
  { intros w Ew x [Fx Bx]. pose proof (Finite_real x Fx) as Ex. assert (T : tx (sdiv x w) = xr A (Fin (real_of x))) by (apply div_w; [exact Ew | rewrite Ex; symmetry; now apply xr_real]). rewrite xr_real in T by assumption. destruct (Finite_intro _ _ T) as [F' V]. split; [exact F'|]. now rewrite V. }
  assert (FP : Finite2 p) by (intros e; apply P). pose proof (affine_w2 m p AF FP) as Ew. unfold m3_mul_point, p2_new. destruct d; cbn [coord2 p2x p2y v2x v2y]; (apply W; [exact Ew|]); mg; sides F.
Qed.
Lemma C89_affine_point_3d_pf : forall (A : arith) (i k : Z) (m : Matrix4x4 (num A)) (p : Point3 (num A)), Affine4x4 m -> (0 <= i)%Z -> (0 <= k)%Z -> MMag4 i m -> PMag3 k p -> fits A (i + k + 3) -> PMag3 (i + k + 3) (m4_mul_point m p).
Proof.
  intros A i k m p AF I K M P F d. apply mat_in4 in M. decompose [and] M. clear M.
  assert (W : forall w : num A, tx w = Fin 1 -> forall x, Mag (i + k + 3) x -> Mag (i + k + 3) (sdiv x w)).
  { intros w Ew x [Fx Bx]. pose proof (Finite_real x Fx) as Ex. assert (T : tx (sdiv x w) = xr A (Fin (real_of x))) by (apply div_w; [exact Ew | rewrite Ex; symmetry; now apply xr_real]). rewrite xr_real in T by assumption. destruct (Finite_intro _ _ T) as [F' V]. split; [exact F'|]. now rewrite V. }
  assert (FP : Finite3 p) by (intros e; apply P). pose proof (affine_w3 m p AF FP) as Ew. unfold m4_mul_point, p3_new. destruct d; cbn [coord3 p3x p3y p3z v3x v3y v3z]; (apply W; [exact Ew|]); mg; sides F.
Qed.
Lemma C89_matrix_product_2d_pf : forall (A : arith) (i k : Z) (a b : Matrix3x3 (num A)), (0 <= i)%Z -> (0 <= k)%Z -> MMag3 i a -> MMag3 k b -> fits A (i + k + 2) -> MMag3 (i + k + 2) (m3_mul a b).
Proof.
  intros A i k a b I K MA MB F. apply mat_in3 in MA. apply mat_in3 in MB. decompose [and] MA. decompose [and] MB. clear MA MB. unfold MMag3, m3_mul, m3_new. cbn [m3_0 m3_1 m3_2 m3_3 m3_4 m3_5 m3_6 m3_7 m3_8]. repeat apply Forall_cons; try apply Forall_nil; mg; sides F.
Qed.
Lemma C89_matrix_product_3d_pf : forall (A : arith) (i k : Z) (a b : Matrix4x4 (num A)), (0 <= i)%Z -> (0 <= k)%Z -> MMag4 i a -> MMag4 k b -> fits A (i + k + 3) -> MMag4 (i + k + 3) (m4_mul a b).
Proof.
  intros A i k a b I K MA MB F. apply mat_in4 in MA. apply mat_in4 in MB. decompose [and] MA. decompose [and] MB. clear MA MB. unfold MMag4, m4_mul, m4_new. cbn [m4_0 m4_1 m4_2 m4_3 m4_4 m4_5 m4_6 m4_7 m4_8 m4_9 m4_10 m4_11 m4_12 m4_13 m4_14 m4_15]. repeat apply Forall_cons; try apply Forall_nil; mg; sides F.
Qed.
Lemma C89_box_measures_2d_pf : forall (A : arith) (k : Z) (b : BoundingBox2 (num A)), (0 <= k)%Z -> PMag2 k (bb2_min b) -> PMag2 k (bb2_max b) -> fits A (2 * k + 2) ->
  (forall d, Mag (k + 1) (bb2_extent b d)) /\ PMag2 (k + 2) (bb2_center b) /\ Mag (2 * k + 2) (bb2_area b).
Proof.
  intros A k b K P Q F. splits.
  - intros []; cbn [bb2_extent]; unfold bb2_width, bb2_height; mg; sides F.
  - intros d. unfold bb2_center, bb2_diagonal, p2_add, p2_sub, v2_mul, p2_new, v2_new. destruct d; cbn [coord2 p2x p2y v2x v2y]; mg; sides F.
  - unfold bb2_area, bb2_size, bb2_width, bb2_height. mg; sides F.
Qed.
Lemma C89_box_measures_3d_pf : forall (A : arith) (k : Z) (b : BoundingBox3 (num A)), (0 <= k)%Z -> PMag3 k (bb3_min b) -> PMag3 k (bb3_max b) -> fits A (3 * k + 5) ->
  (forall d, Mag (k + 1) (bb3_extent b d)) /\ PMag3 (k + 2) (bb3_center b) /\ Mag (2 * k + 5) (bb3_surface_area b) /\ Mag (3 * k + 3) (bb3_volume b).
Proof.
  intros A k b K P Q F. splits.
  - intros []; cbn [bb3_extent]; unfold bb3_width, bb3_height, bb3_depth; mg; sides F.
  - intros d. unfold bb3_center, bb3_diagonal, p3_add, p3_sub, v3_mul, p3_new, v3_new. destruct d; cbn [coord3 p3x p3y p3z v3x v3y v3z]; mg; sides F.
  - unfold bb3_surface_area, bb3_diagonal, p3_sub, v3_new. cbn [v3x v3y v3z]. mg; sides F.
  - unfold bb3_volume, bb3_size, bb3_width, bb3_height, bb3_depth. mg; sides F.
Qed.
Lemma safe_pos_exp f : (0 <= safe_exp f)%Z.
Proof. destruct f; cbn; lia. Qed.
Lemma xr_pow3 (A : arith) (r : R) (i : Z) : (0 <= i)%Z -> fits A (i + 1) -> Rabs r <= 3 * bpow radix2 i -> exists s, xr A (Fin r) = Fin s.
Proof.
  intros I0 K H. destruct A as [f P|]; [|exists r; reflexivity]. cbn [xr fits] in *. apply Rabs_le_inv in H.
  assert (Q : rnd f (3 * bpow radix2 i) = 3 * bpow radix2 i).
  { apply rnd_repr. apply generic_format_FLT. exists (Float radix2 3 i); [reflexivity | destruct f; cbn; lia | unfold femin; destruct f; cbn in *; lia]. }
  assert (B : 3 * bpow radix2 i < fmax_bound f).
  { unfold fmax_bound. apply Rlt_le_trans with (bpow radix2 (i + 2)); [rewrite bpow_plus; replace (bpow radix2 2) with 4 by (cbn; lra); pose proof (bpow_gt_0 radix2 i); lra | apply bpow_le; lia]. }
  pose proof (rnd_mono f r (3 * bpow radix2 i) ltac:(lra)) as M1. pose proof (rnd_mono f (- r) (3 * bpow radix2 i) ltac:(lra)) as M. rewrite rnd_opp in M. rewrite Q in *.
  exists (rnd f r). destruct (xround_cases f r); [reflexivity | lra | lra].
Qed.
Section B.
Context {A : arith}.
Implicit Types x y : num A.
Lemma add_3 i x y : (0 <= i)%Z -> Mag (i + 1) x -> Mag i y -> fits A (i + 1) -> Finite (sadd x y).
Proof.
  intros I [Fx Bx] [Fy By] K. destruct (xr_pow3 A (real_of x + real_of y) i I K) as [s E].
  - rewrite bpow_plus in Bx. replace (bpow radix2 1) with 2 in Bx by (cbn; lra). eapply Rle_trans; [apply Rabs_triang | lra].
  - assert (T : tx (sadd x y) = Fin s) by (rewrite tx_add, (Finite_real _ Fx), (Finite_real _ Fy); exact E). exact (proj1 (Finite_intro _ _ T)).
Qed.
Lemma Mag_ex x : Finite x -> exists k, (0 <= k)%Z /\ Mag k x.
Proof.
  intros F. exists (Z.max 0 (mag radix2 (real_of x))). split; [lia|]. split; [exact F|]. left. eapply Rlt_le_trans; [apply bpow_mag_gt | apply bpow_le; lia].
Qed.
Lemma sub_small x y : Finite (ssub x y) -> NotTooSmall (A:=A) (real_of x - real_of y) -> NotTooSmall (A:=A) (real_of (ssub x y)).
Proof.
  intros F N. destruct (err_sub x y F) as (Fx & Fy & _). assert (T : tx (ssub x y) = xr A (Fin (real_of x - real_of y))) by (rewrite tx_sub, (Finite_real _ Fx), (Finite_real _ Fy); reflexivity).
  rewrite (Finite_real _ F) in T. set (z := real_of (ssub x y)) in *. clearbody z. set (r := real_of x - real_of y) in *. clearbody r. clear -T N. unfold NotTooSmall in *. destruct A as [f P|]; cbn [xr] in T.
  - set (b := bpow radix2 (- safe_exp f)) in *. assert (Q : rnd f b = b) by (apply rnd_repr; apply generic_format_bpow; unfold fexp_f, FLT_exp, femin; destruct f; cbn in *; lia).
    assert (E : z = rnd f r) by (destruct (xround_cases f r); congruence). rewrite E. assert (B : 0 < b) by apply bpow_gt_0. clearbody b.
    destruct (Rle_dec 0 r) as [P0|P0].
    + rewrite Rabs_pos_eq in N by lra. pose proof (rnd_mono f b r N) as M. rewrite Q in M. rewrite Rabs_pos_eq by lra. exact M.
    + rewrite Rabs_left in N by lra. pose proof (rnd_mono f b (- r) N) as M. rewrite rnd_opp, Q in M. rewrite Rabs_left by lra. exact M.
  - injection T as ->. exact N.
Qed.
End B.
Lemma safe_mag2 {A : arith} (g : Dimension2 -> num A) : (forall d, Finite (g d)) -> exists k, (0 <= k)%Z /\ forall d, Mag k (g d).
Proof.
  intros B. assert (M : forall d, exists k, (0 <= k)%Z /\ Mag k (g d)) by (intros d; apply Mag_ex; apply B).
  destruct (M D2X) as (k1 & K1 & M1). destruct (M D2Y) as (k2 & K2 & M2). exists (Z.max k1 k2). split; [lia|]. intros []; [eapply Mag_le; [exact M1 | lia] | eapply Mag_le; [exact M2 | lia]].
Qed.
Lemma safe_two2 {A : arith} (g h : Dimension2 -> num A) : (forall d, NotTooBig (g d)) -> (forall d, NotTooBig (h d)) -> exists k, (0 <= k)%Z /\ (forall d, Mag k (g d)) /\ (forall d, Mag k (h d)) /\ fits A (2 * k + 3).
Proof.
  intros G H. destruct A as [f P|].
  - exists (safe_exp f). split; [apply safe_pos_exp|]. split; [exact G|]. split; [exact H|]. destruct f; cbn; lia.
  - destruct (safe_mag2 g (fun d => proj1 (G d))) as (k & K & M). destruct (safe_mag2 h (fun d => proj1 (H d))) as (k' & K' & M'). exists (Z.max k k'). split; [lia|]. split; [|split; [|exact I]]; intros d; eapply Mag_le; [apply M | lia | apply M' | lia].
Qed.
Lemma safe_core2 {A : arith} (v : Vector2 (num A)) (d : Dimension2) : Finite (v2_dot v v) -> NotTooSmall (A:=A) (real_of (vcoord2 v d)) -> VFinite2 v ->
  min_subnormal A <= unit_roundoff A * real_of (v2_dot v v) /\ 0 < real_of (v2_dot v v) /\ 0 < Rnorm2 (RV2 v).
Proof.
  intros F N FV. pose proof (sq_le_dot2 v d FV) as L. assert (Fs : Finite (smul (vcoord2 v d) (vcoord2 v d))). { apply Finite_tx. rewrite Le_tx in L. rewrite (Finite_real _ F) in L. pose proof (sq_nn' _ (FV d)) as S. rewrite Le_tx, tx_0 in S. destruct (tx (smul _ _)); try discriminate; eauto. }
  destruct (safe_sq _ (FV d) Fs N) as [S1 S2]. apply (Le_real _ _ Fs F) in L. pose proof (u_pos (A:=A)) as U.
  split; [|split; [lra|]]. { eapply Rle_trans; [exact S1|]. apply Rmult_le_compat_l; lra. }
  eapply Rlt_le_trans; [|apply (comp_le_norm2 (RV2 v) d)]. assert (vcoord2 (RV2 v) d = real_of (vcoord2 v d)) as -> by (destruct d; reflexivity).
  apply Rabs_pos_lt. intros Z. unfold NotTooSmall in N. rewrite Z in N. destruct A as [f P|]; [|congruence]. rewrite Rabs_R0 in N. pose proof (bpow_gt_0 radix2 (- safe_exp f)). lra.
Qed.
Lemma safe_mag3 {A : arith} (g : Dimension3 -> num A) : (forall d, Finite (g d)) -> exists k, (0 <= k)%Z /\ forall d, Mag k (g d).
Proof.
  intros B. assert (M : forall d, exists k, (0 <= k)%Z /\ Mag k (g d)) by (intros d; apply Mag_ex; apply B).
  destruct (M D3X) as (k1 & K1 & M1). destruct (M D3Y) as (k2 & K2 & M2). destruct (M D3Z) as (k3 & K3 & M3). exists (Z.max k1 (Z.max k2 k3)). split; [lia|]. intros []; [eapply Mag_le; [exact M1 | lia] | eapply Mag_le; [exact M2 | lia] | eapply Mag_le; [exact M3 | lia]].
Qed.
Lemma safe_two3 {A : arith} (g h : Dimension3 -> num A) : (forall d, NotTooBig (g d)) -> (forall d, NotTooBig (h d)) -> exists k, (0 <= k)%Z /\ (forall d, Mag k (g d)) /\ (forall d, Mag k (h d)) /\ fits A (2 * k + 3).
Proof.
  intros G H. destruct A as [f P|].
  - exists (safe_exp f). split; [apply safe_pos_exp|]. split; [exact G|]. split; [exact H|]. destruct f; cbn; lia.
  - destruct (safe_mag3 g (fun d => proj1 (G d))) as (k & K & M). destruct (safe_mag3 h (fun d => proj1 (H d))) as (k' & K' & M'). exists (Z.max k k'). split; [lia|]. split; [|split; [|exact I]]; intros d; eapply Mag_le; [apply M | lia | apply M' | lia].
Qed.
Lemma safe_core3 {A : arith} (v : Vector3 (num A)) (d : Dimension3) : Finite (v3_dot v v) -> NotTooSmall (A:=A) (real_of (vcoord3 v d)) -> VFinite3 v ->
  min_subnormal A <= unit_roundoff A * real_of (v3_dot v v) /\ 0 < real_of (v3_dot v v) /\ 0 < Rnorm3 (RV3 v).
Proof.
  intros F N FV. pose proof (sq_le_dot3 v d FV) as L. assert (Fs : Finite (smul (vcoord3 v d) (vcoord3 v d))). { apply Finite_tx. rewrite Le_tx in L. rewrite (Finite_real _ F) in L. pose proof (sq_nn' _ (FV d)) as S. rewrite Le_tx, tx_0 in S. destruct (tx (smul _ _)); try discriminate; eauto. }
  destruct (safe_sq _ (FV d) Fs N) as [S1 S2]. apply (Le_real _ _ Fs F) in L. pose proof (u_pos (A:=A)) as U.
  split; [|split; [lra|]]. { eapply Rle_trans; [exact S1|]. apply Rmult_le_compat_l; lra. }
  eapply Rlt_le_trans; [|apply (comp_le_norm3 (RV3 v) d)]. assert (vcoord3 (RV3 v) d = real_of (vcoord3 v d)) as -> by (destruct d; reflexivity).
  apply Rabs_pos_lt. intros Z. unfold NotTooSmall in N. rewrite Z in N. destruct A as [f P|]; [|congruence]. rewrite Rabs_R0 in N. pose proof (bpow_gt_0 radix2 (- safe_exp f)). lra.
Qed.
Lemma C89_safe_vector_2d_pf : forall (A : arith) (v : Vector2 (num A)), (forall d, NotTooBig (vcoord2 v d)) -> (exists d, NotTooSmall (A:=A) (real_of (vcoord2 v d))) ->
  Finite (v2_dot v v) /\ Finite (v2_length v) /\ Lt szero (v2_length v) /\
  Rabs (real_of (v2_length v) - Rnorm2 (RV2 v)) <= 5 * unit_roundoff A * Rnorm2 (RV2 v) /\
  VFinite2 (v2_normalize v) /\
  (forall d, let n := vcoord2 (RV2 v) d / Rnorm2 (RV2 v) in Rabs (vcoord2 (RV2 (v2_normalize v)) d - n) <= 7 * unit_roundoff A * Rabs n + min_subnormal A) /\
  Rabs (Rnorm2 (RV2 (v2_normalize v)) - 1) <= 8 * unit_roundoff A.
Proof.
  intros A v B [d N]. destruct (safe_two2 (vcoord2 v) (vcoord2 v) B B) as (k & K & M & _ & F). assert (FD : Finite (v2_dot v v)) by (apply (C89_dot_2d_pf A k k v v K K M M); eapply fits_le; [exact F | lia]).
  assert (FV : VFinite2 v) by (intros e; apply B). destruct (safe_core2 v d FD N FV) as (S1 & S2 & S3). destruct (C55_length_accurate_2d_pf A v FD S1) as [FL E]. destruct (C24_normalize_accurate_2d_pf A v FD S1 S3) as (H1 & H2 & H3).
  repeat split; try assumption. apply Lt_tx. rewrite tx_0, (Finite_real _ FL). apply Rlt_bool_true. pose proof (u_pos (A:=A)) as U. apply Rabs_le_inv in E. destruct E as [E _].
  assert (5 * unit_roundoff A * Rnorm2 (RV2 v) <= / 2 * Rnorm2 (RV2 v)) by (apply Rmult_le_compat_r; lra). lra.
Qed.
Lemma C89_safe_vector_3d_pf : forall (A : arith) (v : Vector3 (num A)), (forall d, NotTooBig (vcoord3 v d)) -> (exists d, NotTooSmall (A:=A) (real_of (vcoord3 v d))) ->
  Finite (v3_dot v v) /\ Finite (v3_length v) /\ Lt szero (v3_length v) /\
  Rabs (real_of (v3_length v) - Rnorm3 (RV3 v)) <= 5 * unit_roundoff A * Rnorm3 (RV3 v) /\
  VFinite3 (v3_normalize v) /\
  (forall d, let n := vcoord3 (RV3 v) d / Rnorm3 (RV3 v) in Rabs (vcoord3 (RV3 (v3_normalize v)) d - n) <= 7 * unit_roundoff A * Rabs n + min_subnormal A) /\
  Rabs (Rnorm3 (RV3 (v3_normalize v)) - 1) <= 8 * unit_roundoff A.
Proof.
  intros A v B [d N]. destruct (safe_two3 (vcoord3 v) (vcoord3 v) B B) as (k & K & M & _ & F). assert (FD : Finite (v3_dot v v)) by (apply (C89_dot_3d_pf A k k v v K K M M); eapply fits_le; [exact F | lia]).
  assert (FV : VFinite3 v) by (intros e; apply B). destruct (safe_core3 v d FD N FV) as (S1 & S2 & S3). destruct (C55_length_accurate_3d_pf A v FD S1) as [FL E]. destruct (C24_normalize_accurate_3d_pf A v FD S1 S3) as (H1 & H2 & H3).
  repeat split; try assumption. apply Lt_tx. rewrite tx_0, (Finite_real _ FL). apply Rlt_bool_true. pose proof (u_pos (A:=A)) as U. apply Rabs_le_inv in E. destruct E as [E _].
  assert (5 * unit_roundoff A * Rnorm3 (RV3 v) <= / 2 * Rnorm3 (RV3 v)) by (apply Rmult_le_compat_r; lra). lra.
Qed.
Lemma C89_safe_distance_2d_pf : forall (A : arith) (p q : Point2 (num A)), (forall d, NotTooBig (coord2 p d)) -> (forall d, NotTooBig (coord2 q d)) ->
  (exists d, NotTooSmall (A:=A) (real_of (coord2 q d) - real_of (coord2 p d))) ->
  Finite (p2_distance p q) /\ Rabs (real_of (p2_distance p q) - Rdist2 (RP2 p) (RP2 q)) <= 7 * unit_roundoff A * Rdist2 (RP2 p) (RP2 q).
Proof.
  intros A p q BP BQ [d N]. assert (H : VFinite2 (p2_sub q p) /\ Finite (v2_dot (p2_sub q p) (p2_sub q p))).
  { destruct (safe_two2 (coord2 p) (coord2 q) BP BQ) as (k & K & MP & MQ & F).
    assert (D : VMag2 (k + 1) (p2_sub q p)) by (intros e; rewrite dsub2; apply Mag_sub; auto; eapply fits_le; [exact F | lia]).
    split; [intros e; apply D|]. apply (C89_dot_2d_pf A (k + 1) (k + 1)); try lia; try exact D. eapply fits_le; [exact F | lia]. }
  destruct H as [FV FD]. apply C55_distance_accurate_2d_pf; [exact FD|]. apply (safe_core2 _ d FD); [|exact FV]. rewrite dsub2. apply sub_small; [|exact N]. rewrite <- dsub2. apply FV.
Qed.
Lemma C89_safe_distance_3d_pf : forall (A : arith) (p q : Point3 (num A)), (forall d, NotTooBig (coord3 p d)) -> (forall d, NotTooBig (coord3 q d)) ->
  (exists d, NotTooSmall (A:=A) (real_of (coord3 q d) - real_of (coord3 p d))) ->
  Finite (p3_distance p q) /\ Rabs (real_of (p3_distance p q) - Rdist3 (RP3 p) (RP3 q)) <= 7 * unit_roundoff A * Rdist3 (RP3 p) (RP3 q).
Proof.
  intros A p q BP BQ [d N]. assert (H : VFinite3 (p3_sub q p) /\ Finite (v3_dot (p3_sub q p) (p3_sub q p))).
  { destruct (safe_two3 (coord3 p) (coord3 q) BP BQ) as (k & K & MP & MQ & F).
    assert (D : VMag3 (k + 1) (p3_sub q p)) by (intros e; rewrite dsub3; apply Mag_sub; auto; eapply fits_le; [exact F | lia]).
    split; [intros e; apply D|]. unfold v3_dot. apply (add_3 (k + 1 + (k + 1))); [lia | mg; sides F | mg; sides F | eapply fits_le; [exact F | lia]]. }
  destruct H as [FV FD]. apply C55_distance_accurate_3d_pf; [exact FD|]. apply (safe_core3 _ d FD); [|exact FV]. rewrite dsub3. apply sub_small; [|exact N]. rewrite <- dsub3. apply FV.
Qed.
Lemma C89_range_needed_pf : let big := mkVector3 (d32 1 64) (d32 0 0) (d32 1 0) : Vector3 (num A32) in let small := mkVector3 (d32 1 (-75)) (d32 0 0) (d32 0 0) : Vector3 (num A32) in
  VFinite3 big /\ Eqs (v3_dot big big) sinf /\ Eqs (v3_length big) sinf /\ Eqs (vcoord3 (v3_normalize big) D3X) szero /\
  VFinite3 small /\ Lt szero (vcoord3 small D3X) /\ Eqs (v3_length small) szero /\ Eqs (vcoord3 (v3_normalize small) D3X) sinf.
Proof.
  cbv zeta. conjs; try (intros []); vm_compute; reflexivity.
Qed.
Lemma lit_mag (f : format) (P : platform f) (n : Z) (k : Z) : (Z.abs n < 2 ^ prec f)%Z -> Finite (flit f n 0 : num (IEEE f P)) -> (0 <= k)%Z -> (Z.abs n <= 2 ^ k)%Z -> Mag (A:=IEEE f P) k (flit f n 0).
Proof. intros B F K L. split; [exact F|]. rewrite real_flit by exact B. rewrite <- abs_IZR. rewrite <- IZR_Zpower by exact K. now apply IZR_le. Qed.
