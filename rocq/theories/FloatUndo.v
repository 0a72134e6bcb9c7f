(** Proofs: undoing transforms in floating point (C82). *)
From Coq Require Import Bool NArith ZArith Reals List Lra Lia.
From Flocq Require Import Core.Zaux Core.Raux Core.Defs Core.Generic_fmt Core.FLT IEEE754.BinarySingleNaN.
From Verif Require Import Scalar Types Vector2 Vector3 Point2 Point3 Ray BoundingBox2 BoundingBox3 Transform2 Transform3 Float
  XReal OrdLaws Arith SpecOrder SpecStruct SpecFloat SpecReal SpecErr SpecSame SpecChain SpecUndo SpecInv ExactMat FloatX XArith FloatLaws FloatTrans ErrBase FloatErr FloatInvAcc ChainReal FloatChain ExVals.
Import ListNotations.
Local Open Scope R_scope.
Lemma undo_real n (G F : matrix) (x y : nat -> R) r (X g : R) : (r < n)%nat -> (forall k, (k < n)%nat -> Rabs (x k) <= y k) ->
  Rabs (X - mat_apply n (mat_mul n G F) x r) <= g -> Rabs (X - x r) <= mat_apply n (undo_defect n G F) y r + g.
Proof.
  intros Hr Hy H. replace (X - x r) with ((X - mat_apply n (mat_mul n G F) x r) + (mat_apply n (mat_mul n G F) x r - x r)) by ring. eapply Rle_trans; [apply Rabs_triang|]. rewrite Rplus_comm. apply Rplus_le_compat; [|exact H].
  replace (mat_apply n (mat_mul n G F) x r - x r) with (mat_apply n (mat_mul n G F) x r - mat_apply n mat_id x r) by (now rewrite (apply_id n x r Hr)). unfold mat_apply. replace (sum_n n (fun k => mat_mul n G F r k * x k) - sum_n n (fun k => mat_id r k * x k)) with (sum_n n (fun k => (mat_mul n G F r k - mat_id r k) * x k)).
  - eapply Rle_trans; [apply sum_abs|]. apply sum_le. intros k Hk. rewrite Rabs_mult. unfold undo_defect. apply Rmult_le_compat_l; [apply Rabs_pos | auto].
  - transitivity (sum_n n (fun k => 1 * (mat_mul n G F r k * x k) + (-1) * (mat_id r k * x k))); [apply sum_ext; intros; ring | rewrite sum_lin; ring].
Qed.
Lemma chain2 n (F G : matrix) x r : (r < n)%nat -> mat_apply n (chain n [F; G]) x r = mat_apply n (mat_mul n G F) x r.
Proof. intros Hr. unfold chain. cbn [fold_left]. rewrite !apply_mul. apply apply_ext. intros k Hk. rewrite apply_mul. apply apply_ext. intros j Hj. now apply apply_id. Qed.
Lemma path2 n g e (F G : matrix) r : floor_path n g e [F; G] r = e * (g * sum_n n (fun k => G r k) + 1).
Proof.
  unfold floor_path. cbn [fold_left]. unfold mat_apply. rewrite (sum_ext n (fun k => G r k * (g * sum_n n (fun k0 => F k k0 * 0) + e)) (fun k => e * G r k + 0 * 0)).
  - rewrite (sum_lin n e 0 (fun k => G r k) (fun _ => 0)). ring.
  - intros k Hk. rewrite (sum_ext n (fun k0 => F k k0 * 0) (fun k0 => 0 * 0 + 0 * 0)) by (intros; ring). rewrite (sum_lin n 0 0 (fun _ => 0) (fun _ => 0)). ring.
Qed.
Lemma C82_undo_point_2d_pf : forall (A : arith) (t : Transform2 (num A)) (p : Point2 (num A)) (d : Dimension2),
  let r := t2_transform_point (t2_inverse t) (t2_transform_point t p) in let u := unit_roundoff A in
  let F := ent3 (RM3 (t2_forward t)) in let G := ent3 (RM3 (t2_forward (t2_inverse t))) in let P := hom2 (absP2 (RP2 p)) in let i := dim2_index d in
  Affine3x3 (t2_forward t) -> Affine3x3 (t2_forward (t2_inverse t)) -> Finite2 r ->
  Rabs (real_of (coord2 r d) - real_of (coord2 p d)) <= mat_apply 3 (undo_defect 3 G F) P i +
  (((1 + u) ^ (2 * 3) - 1) * mat_apply 3 (mat_mul 3 (mat_abs G) (mat_abs F)) P i + 2 * min_subnormal A * ((1 + u) ^ 3 * sum_n 3 (fun k => mat_abs G i k) + 1)).
Proof.
  intros A t p d. cbv zeta. intros AF AG Fr.
  pose proof (C81_steps_point_2d_pf A [t; t2_inverse t] p d (Forall_cons t AF (Forall_cons (t2_inverse t) AG (Forall_nil _))) Fr) as P. cbv zeta in P. cbn [map fold_left length] in P.
  rewrite !chain2 in P by apply dim_lt2. rewrite path2 in P.
  replace (real_of (coord2 p d)) with (hom2 (RP2 p) (dim2_index d)) by (destruct d; reflexivity).
  apply undo_real; [apply dim_lt2 | intros k Hk; rewrite hom_abs2; apply Rle_refl |]. eapply Rle_trans; [exact P|]. right. cbn [Nat.mul Nat.add]. ring.
Qed.
Lemma C82_undo_point_3d_pf : forall (A : arith) (t : Transform3 (num A)) (p : Point3 (num A)) (d : Dimension3),
  let r := t3_transform_point (t3_inverse t) (t3_transform_point t p) in let u := unit_roundoff A in
  let F := ent4 (RM4 (t3_forward t)) in let G := ent4 (RM4 (t3_forward (t3_inverse t))) in let P := hom3 (absP3 (RP3 p)) in let i := dim3_index d in
  Affine4x4 (t3_forward t) -> Affine4x4 (t3_forward (t3_inverse t)) -> Finite3 r ->
  Rabs (real_of (coord3 r d) - real_of (coord3 p d)) <= mat_apply 4 (undo_defect 4 G F) P i +
  (((1 + u) ^ (2 * 4) - 1) * mat_apply 4 (mat_mul 4 (mat_abs G) (mat_abs F)) P i + 3 * min_subnormal A * ((1 + u) ^ 4 * sum_n 4 (fun k => mat_abs G i k) + 1)).
Proof.
  intros A t p d. cbv zeta. intros AF AG Fr.
  pose proof (C81_steps_point_3d_pf A [t; t3_inverse t] p d (Forall_cons t AF (Forall_cons (t3_inverse t) AG (Forall_nil _))) Fr) as P. cbv zeta in P. cbn [map fold_left length] in P.
  rewrite !chain2 in P by apply dim_lt3. rewrite path2 in P.
  replace (real_of (coord3 p d)) with (hom3 (RP3 p) (dim3_index d)) by (destruct d; reflexivity).
  apply undo_real; [apply dim_lt3 | intros k Hk; rewrite hom_abs3; apply Rle_refl |]. eapply Rle_trans; [exact P|]. right. cbn [Nat.mul Nat.add]. ring.
Qed.
Lemma C82_undo_vector_2d_pf : forall (A : arith) (t : Transform2 (num A)) (v : Vector2 (num A)) (d : Dimension2),
  let r := t2_transform_vector (t2_inverse t) (t2_transform_vector t v) in let u := unit_roundoff A in
  let F := ent3 (RM3 (t2_forward t)) in let G := ent3 (RM3 (t2_forward (t2_inverse t))) in let P := dir2 (absV2 (RV2 v)) in let i := dim2_index d in
  Affine3x3 (t2_forward t) -> Affine3x3 (t2_forward (t2_inverse t)) -> VFinite2 r ->
  Rabs (real_of (vcoord2 r d) - real_of (vcoord2 v d)) <= mat_apply 3 (undo_defect 3 G F) P i +
  (((1 + u) ^ (2 * 3) - 1) * mat_apply 3 (mat_mul 3 (mat_abs G) (mat_abs F)) P i + 2 * min_subnormal A * ((1 + u) ^ 3 * sum_n 3 (fun k => mat_abs G i k) + 1)).
Proof.
  intros A t p d. cbv zeta. intros AF AG Fr.
  pose proof (C81_steps_vector_2d_pf A [t; t2_inverse t] p d (Forall_cons t AF (Forall_cons (t2_inverse t) AG (Forall_nil _))) Fr) as P. cbv zeta in P. cbn [map fold_left length] in P.
  rewrite !chain2 in P by apply dim_lt2. rewrite path2 in P.
  replace (real_of (vcoord2 p d)) with (dir2 (RV2 p) (dim2_index d)) by (destruct d; reflexivity).
  apply undo_real; [apply dim_lt2 | intros k Hk; rewrite dir_abs2; apply Rle_refl |]. eapply Rle_trans; [exact P|]. right. cbn [Nat.mul Nat.add]. ring.
Qed.
Lemma C82_undo_vector_3d_pf : forall (A : arith) (t : Transform3 (num A)) (v : Vector3 (num A)) (d : Dimension3),
  let r := t3_transform_vector (t3_inverse t) (t3_transform_vector t v) in let u := unit_roundoff A in
  let F := ent4 (RM4 (t3_forward t)) in let G := ent4 (RM4 (t3_forward (t3_inverse t))) in let P := dir3 (absV3 (RV3 v)) in let i := dim3_index d in
  Affine4x4 (t3_forward t) -> Affine4x4 (t3_forward (t3_inverse t)) -> VFinite3 r ->
  Rabs (real_of (vcoord3 r d) - real_of (vcoord3 v d)) <= mat_apply 4 (undo_defect 4 G F) P i +
  (((1 + u) ^ (2 * 4) - 1) * mat_apply 4 (mat_mul 4 (mat_abs G) (mat_abs F)) P i + 3 * min_subnormal A * ((1 + u) ^ 4 * sum_n 4 (fun k => mat_abs G i k) + 1)).
Proof.
  intros A t p d. cbv zeta. intros AF AG Fr.
  pose proof (C81_steps_vector_3d_pf A [t; t3_inverse t] p d (Forall_cons t AF (Forall_cons (t3_inverse t) AG (Forall_nil _))) Fr) as P. cbv zeta in P. cbn [map fold_left length] in P.
  rewrite !chain2 in P by apply dim_lt3. rewrite path2 in P.
  replace (real_of (vcoord3 p d)) with (dir3 (RV3 p) (dim3_index d)) by (destruct d; reflexivity).
  apply undo_real; [apply dim_lt3 | intros k Hk; rewrite dir_abs3; apply Rle_refl |]. eapply Rle_trans; [exact P|]. right. cbn [Nat.mul Nat.add]. ring.
Qed.
Lemma real_0 {A : arith} : real_of (szero : num A) = 0.
Proof. apply real_of_tx, tx_0. Qed.
Lemma real_1 {A : arith} : real_of (sone : num A) = 1.
Proof. apply real_of_tx, tx_1. Qed.
Lemma C82_translate_defect_2d_pf : forall (A : arith) (v : Vector2 (num A)), VFinite2 v -> let t := t2_translate v in
  forall r c, (r < 3)%nat -> (c < 3)%nat -> undo_defect 3 (ent3 (RM3 (t2_forward (t2_inverse t)))) (ent3 (RM3 (t2_forward t))) r c = 0.
Proof.
  intros A v F t r c Hr Hc. destruct (real_of_neg _ (F D2X)) as [_ Nx]; cbn in Nx. destruct (real_of_neg _ (F D2Y)) as [_ Ny]; cbn in Ny. unfold undo_defect. enough (E : mat_mul 3 (ent3 (RM3 (t2_forward (t2_inverse t)))) (ent3 (RM3 (t2_forward t))) r c = mat_id r c) by (rewrite E, Rminus_diag_eq, Rabs_R0 by reflexivity; reflexivity).
  assert (R1 : r = 0%nat \/ r = 1%nat \/ r = 2%nat) by lia. assert (C1 : c = 0%nat \/ c = 1%nat \/ c = 2%nat) by lia. repeat (destruct R1 as [->|R1]; [|]); try subst r; repeat (destruct C1 as [->|C1]; [|]); try subst c; (unfold mat_mul; cbn; rewrite ?real_0, ?real_1, ?Nx, ?Ny, ?Nz; ring).
Qed.
Lemma C82_translate_defect_3d_pf : forall (A : arith) (v : Vector3 (num A)), VFinite3 v -> let t := t3_translate v in
  forall r c, (r < 4)%nat -> (c < 4)%nat -> undo_defect 4 (ent4 (RM4 (t3_forward (t3_inverse t)))) (ent4 (RM4 (t3_forward t))) r c = 0.
Proof.
  intros A v F t r c Hr Hc. destruct (real_of_neg _ (F D3X)) as [_ Nx]; cbn in Nx. destruct (real_of_neg _ (F D3Y)) as [_ Ny]; cbn in Ny. destruct (real_of_neg _ (F D3Z)) as [_ Nz]; cbn in Nz. unfold undo_defect. enough (E : mat_mul 4 (ent4 (RM4 (t3_forward (t3_inverse t)))) (ent4 (RM4 (t3_forward t))) r c = mat_id r c) by (rewrite E, Rminus_diag_eq, Rabs_R0 by reflexivity; reflexivity).
  assert (R1 : r = 0%nat \/ r = 1%nat \/ r = 2%nat \/ r = 3%nat) by lia. assert (C1 : c = 0%nat \/ c = 1%nat \/ c = 2%nat \/ c = 3%nat) by lia. repeat (destruct R1 as [->|R1]; [|]); try subst r; repeat (destruct C1 as [->|C1]; [|]); try subst c; (unfold mat_mul; cbn; rewrite ?real_0, ?real_1, ?Nx, ?Ny, ?Nz; ring).
Qed.
Lemma recip_fin {A : arith} (s : num A) : Finite (srecip s) -> Finite s -> real_of s <> 0 /\ exists d e, Rabs d <= unit_roundoff A /\ Rabs e <= min_subnormal A / 2 /\ real_of (srecip s) = 1 / real_of s * (1 + d) + e.
Proof.
  intros F Fs. assert (Z : tx s <> Fin 0).
  { intros Z. apply Finite_real in F. destruct A as [f P|].
    - destruct (fdiv_by_zero f fone s Z) as (z & E & K). change (toX (fdiv fone s) = Fin (real_of (srecip s : num (IEEE f P)))) in F. rewrite F in E. subst z. destruct K as [[_ K]|[[K|K] _]]; discriminate K.
    - cbn in Z, F. subst s. revert F. cbn. rewrite Req_bool_true by reflexivity. unfold xsigned_inf. rewrite Rlt_bool_true by lra. discriminate. }
  assert (N : real_of s <> 0) by (intros Q; apply Z; rewrite (Finite_real s Fs), Q; reflexivity). split; [exact N|].
  assert (E : tx (srecip s) = tx (sdiv sone s)) by (destruct A; reflexivity). destruct (real_of_eq _ _ E) as [E1 E2]. rewrite (E2 F). apply E1 in F. destruct (err_div _ _ F Fs N) as (_ & d & e & H1 & H2 & H3). rewrite (real_1 (A:=A)) in H3. eauto.
Qed.
(* u, t bounds; x = s p (1+d1) + e1, g = (1/s)(1+d2) + e2, r = g x (1+d3) + e3 *)
Lemma undo_mul_real (u t s p g x r d1 e1 d2 e2 d3 e3 : R) : 0 <= u <= 1 -> 0 <= t <= 1 -> s <> 0 ->
  Rabs d1 <= u -> Rabs e1 <= t / 2 -> Rabs d2 <= u -> Rabs e2 <= t / 2 -> Rabs d3 <= u -> Rabs e3 <= t / 2 ->
  x = s * p * (1 + d1) + e1 -> g = 1 / s * (1 + d2) + e2 -> r = g * x * (1 + d3) + e3 ->
  Rabs (r - p) <= ((1 + u) ^ 3 - 1) * Rabs p + t * ((1 + u) ^ 2 * (Rabs (s * p) + / Rabs s) + 2).
Proof.
  intros U T S D1 E1 D2 E2 D3 E3 -> -> ->.
  replace ((1 / s * (1 + d2) + e2) * (s * p * (1 + d1) + e1) * (1 + d3) + e3 - p) with (p * ((1 + d1) * (1 + d2) * (1 + d3) - 1) + (e2 * (s * p) * ((1 + d1) * (1 + d3)) + e1 * (/ s) * ((1 + d2) * (1 + d3)) + e1 * e2 * (1 + d3) + e3)) by (field; exact S).
  assert (B : forall d, Rabs d <= u -> 0 <= Rabs (1 + d) <= 1 + u). { intros d H. split; [apply Rabs_pos|]. eapply Rle_trans; [apply Rabs_triang|]. rewrite Rabs_R1. lra. }
  pose proof (B _ D1) as B1. pose proof (B _ D2) as B2. pose proof (B _ D3) as B3. clear B.
  assert (P3 : Rabs ((1 + d1) * (1 + d2) * (1 + d3) - 1) <= (1 + u) ^ 3 - 1).
  { replace ((1 + d1) * (1 + d2) * (1 + d3) - 1) with (d1 + d2 * (1 + d1) + d3 * ((1 + d1) * (1 + d2))) by ring. replace ((1 + u) ^ 3 - 1) with (u + u * (1 + u) + u * ((1 + u) * (1 + u))) by ring.
    eapply Rle_trans; [apply Rabs_triang|]. apply Rplus_le_compat; [eapply Rle_trans; [apply Rabs_triang|]; apply Rplus_le_compat; [exact D1|]|]; rewrite !Rabs_mult; repeat (apply Rmult_le_compat; try apply Rabs_pos; try (apply Rmult_le_pos; apply Rabs_pos)); lra. }
  eapply Rle_trans; [apply Rabs_triang|]. apply Rplus_le_compat.
  - rewrite Rabs_mult, Rmult_comm. apply Rmult_le_compat_r; [apply Rabs_pos | exact P3].
  - pose proof (Rabs_pos (s * p)) as SP. pose proof (Rabs_pos (/ s)) as IS. rewrite Rabs_inv in IS.
    assert (Q : forall a b, 0 <= a <= 1 + u -> 0 <= b <= 1 + u -> 0 <= a * b <= (1 + u) ^ 2). { intros a b Ha Hb. split; [apply Rmult_le_pos; lra|]. replace ((1 + u) ^ 2) with ((1 + u) * (1 + u)) by ring. apply Rmult_le_compat; lra. }
    pose proof (Q _ _ B1 B3) as Q1. pose proof (Q _ _ B2 B3) as Q2.
    assert (T1 : Rabs (e2 * (s * p) * ((1 + d1) * (1 + d3))) <= t / 2 * Rabs (s * p) * (1 + u) ^ 2). { rewrite (Rabs_mult (e2 * (s * p))), (Rabs_mult e2), (Rabs_mult (1 + d1)). apply Rmult_le_compat; [apply Rmult_le_pos; apply Rabs_pos | tauto | apply Rmult_le_compat_r; [exact SP | exact E2] | tauto]. }
    assert (T2 : Rabs (e1 * / s * ((1 + d2) * (1 + d3))) <= t / 2 * / Rabs s * (1 + u) ^ 2). { rewrite (Rabs_mult (e1 * / s)), (Rabs_mult e1), (Rabs_mult (1 + d2)), Rabs_inv. apply Rmult_le_compat; [apply Rmult_le_pos; [apply Rabs_pos | exact IS] | tauto | apply Rmult_le_compat_r; [exact IS | exact E1] | tauto]. }
    assert (T3 : Rabs (e1 * e2 * (1 + d3)) <= t / 2 * (t / 2) * (1 + u)). { rewrite !Rabs_mult. apply Rmult_le_compat; [apply Rmult_le_pos; apply Rabs_pos | tauto | apply Rmult_le_compat; try apply Rabs_pos; assumption | tauto]. }
    assert (T4 : t / 2 * (t / 2) * (1 + u) <= t). { replace t with (t * 1 * 1) at 3 by ring. replace (t / 2 * (t / 2) * (1 + u)) with (t * (t / 2) * ((1 + u) / 2)) by field. apply Rmult_le_compat; try lra; [apply Rmult_le_pos; lra | apply Rmult_le_compat_l; lra]. }
    assert (G0 : 0 <= t * (1 + u) ^ 2 * (Rabs (s * p) + / Rabs s)). { apply Rmult_le_pos; [apply Rmult_le_pos; [lra | apply pow_le; lra] | lra]. }
    eapply Rle_trans; [apply Rabs_triang|]. eapply Rle_trans; [apply Rplus_le_compat_r, Rabs_triang|]. eapply Rle_trans; [apply Rplus_le_compat_r, Rplus_le_compat_r, Rabs_triang|]. nra.
Qed.
Lemma t_le1 {A : arith} : min_subnormal A <= 1.
Proof. destruct A as [f P|]; cbn [min_subnormal]; [|lra]. replace 1 with (bpow radix2 0) by reflexivity. apply bpow_le. destruct f; cbn; lia. Qed.
Lemma undo_mul {A : arith} (s p : num A) : Finite s -> Finite (smul (srecip s) (smul s p)) ->
  Rabs (real_of (smul (srecip s) (smul s p)) - real_of p) <= ((1 + unit_roundoff A) ^ 3 - 1) * Rabs (real_of p) + min_subnormal A * ((1 + unit_roundoff A) ^ 2 * (Rabs (real_of s * real_of p) + / Rabs (real_of s)) + 2).
Proof.
  intros Fs F. destruct (err_mul _ _ F) as (Fg & Fx & d3 & e3 & D3 & E3 & V3). destruct (err_mul _ _ Fx) as (_ & _ & d1 & e1 & D1 & E1 & V1). destruct (recip_fin s Fg Fs) as (N & d2 & e2 & D2 & E2 & V2).
  assert (U : 0 <= unit_roundoff A <= 1) by (pose proof (u_pos (A:=A)); lra). assert (T : 0 <= min_subnormal A <= 1) by (split; [apply (t_pos (A:=A)) | apply (t_le1 (A:=A))]).
  exact (undo_mul_real _ _ _ _ _ _ _ d1 e1 d2 e2 d3 e3 U T N D1 E1 D2 E2 D3 E3 V1 V2 V3).
Qed.
Lemma undo_add {A : arith} (v p : num A) : Finite (ssub (sadd p v) v) ->
  Rabs (real_of (ssub (sadd p v) v) - real_of p) <= unit_roundoff A * ((1 + unit_roundoff A) * Rabs (real_of p + real_of v) + Rabs (real_of p)).
Proof.
  intros F. destruct (err_sub _ _ F) as (Fx & _ & d2 & D2 & V2). destruct (err_add _ _ Fx) as (_ & _ & d1 & D1 & V1). rewrite V2, V1. set (u := unit_roundoff A) in *. set (a := real_of p) in *. set (b := real_of v) in *.
  pose proof (u_pos (A:=A)) as U. fold u in U.
  replace (((a + b) * (1 + d1) - b) * (1 + d2) - a) with ((a + b) * (d1 * (1 + d2)) + a * d2) by ring. eapply Rle_trans; [apply Rabs_triang|]. rewrite !Rabs_mult.
  assert (B : Rabs (1 + d2) <= 1 + u) by (eapply Rle_trans; [apply Rabs_triang|]; rewrite Rabs_R1; lra).
  replace (u * ((1 + u) * Rabs (a + b) + Rabs a)) with (Rabs (a + b) * (u * (1 + u)) + Rabs a * u) by ring.
  apply Rplus_le_compat; apply Rmult_le_compat_l; try apply Rabs_pos; [|exact D2]. apply Rmult_le_compat; try apply Rabs_pos; assumption.
Qed.
Lemma Eqs_realv {A : arith} (x y : num A) : Eqs x y -> Finite x -> Finite y /\ real_of x = real_of y.
Proof. intros E F. apply Eqs_tx in E. destruct E as [E _]. destruct (real_of_eq _ _ E) as [Q1 Q2]. split; [apply Q1, F | apply Q2, F]. Qed.
Lemma C82_undo_translate_2d_pf : forall (A : arith) (v : Vector2 (num A)) (p : Point2 (num A)) (d : Dimension2), let t := t2_translate v in let u := unit_roundoff A in
  let r := t2_transform_point (t2_inverse t) (t2_transform_point t p) in VFinite2 v -> Finite2 p -> Finite2 r ->
  Rabs (real_of (coord2 r d) - real_of (coord2 p d)) <= u * ((1 + u) * Rabs (real_of (coord2 p d) + real_of (vcoord2 v d)) + Rabs (real_of (coord2 p d))).
Proof.
  intros A v p d. cbv zeta. intros Fv Fp Fr. assert (AF : Affine3x3 (t2_forward (t2_inverse (t2_translate v)))) by (pose proof (aff_sz (A:=A)); unfold Affine3x3; cbn; tauto).
  pose proof (point_fin2 _ _ AF Fr) as Fq. set (q := t2_transform_point (t2_translate v) p) in *. change (m3_mul_point (t2_forward (t2_translate v)) p) with q in Fq.
  destruct (proj1 (C40_translate_2d_pf A v p v) Fv Fp) as [E1 _]. destruct (proj1 (C40_translate_2d_pf A v q v) Fv Fq) as [_ E2]. fold q in E1.
  destruct (Eqs_realv _ _ (E2 d) (Fr d)) as [F2 R2]. rewrite R2. destruct (Eqs_realv _ _ (E1 d) (Fq d)) as [F1 R1]. pose proof (proj1 (Eqs_tx _ _) (E1 d)) as [T1 _].
  assert (T2 : tx (coord2 (p2_sub_v q v) d) = tx (ssub (sadd (coord2 p d) (vcoord2 v d)) (vcoord2 v d))). { transitivity (tx (ssub (coord2 q d) (vcoord2 v d))); [destruct d; reflexivity|]. rewrite !tx_sub. f_equal. rewrite T1. destruct d; reflexivity. }
  destruct (real_of_eq _ _ T2) as [Q1 Q2]. rewrite (Q2 F2). apply undo_add, Q1, F2.
Qed.
Lemma C82_undo_translate_3d_pf : forall (A : arith) (v : Vector3 (num A)) (p : Point3 (num A)) (d : Dimension3), let t := t3_translate v in let u := unit_roundoff A in
  let r := t3_transform_point (t3_inverse t) (t3_transform_point t p) in VFinite3 v -> Finite3 p -> Finite3 r ->
  Rabs (real_of (coord3 r d) - real_of (coord3 p d)) <= u * ((1 + u) * Rabs (real_of (coord3 p d) + real_of (vcoord3 v d)) + Rabs (real_of (coord3 p d))).
Proof.
  intros A v p d. cbv zeta. intros Fv Fp Fr. assert (AF : Affine4x4 (t3_forward (t3_inverse (t3_translate v)))) by (pose proof (aff_sz (A:=A)); unfold Affine4x4; cbn; tauto).
  pose proof (point_fin3 _ _ AF Fr) as Fq. set (q := t3_transform_point (t3_translate v) p) in *. change (m4_mul_point (t3_forward (t3_translate v)) p) with q in Fq.
  destruct (proj1 (C40_translate_3d_pf A v p v) Fv Fp) as [E1 _]. destruct (proj1 (C40_translate_3d_pf A v q v) Fv Fq) as [_ E2]. fold q in E1.
  destruct (Eqs_realv _ _ (E2 d) (Fr d)) as [F2 R2]. rewrite R2. destruct (Eqs_realv _ _ (E1 d) (Fq d)) as [F1 R1]. pose proof (proj1 (Eqs_tx _ _) (E1 d)) as [T1 _].
  assert (T2 : tx (coord3 (p3_sub_v q v) d) = tx (ssub (sadd (coord3 p d) (vcoord3 v d)) (vcoord3 v d))). { transitivity (tx (ssub (coord3 q d) (vcoord3 v d))); [destruct d; reflexivity|]. rewrite !tx_sub. f_equal. rewrite T1. destruct d; reflexivity. }
  destruct (real_of_eq _ _ T2) as [Q1 Q2]. rewrite (Q2 F2). apply undo_add, Q1, F2.
Qed.
Lemma C82_undo_scale_2d_pf : forall (A : arith) (sx sy : num A) (p : Point2 (num A)) (d : Dimension2), let t := t2_scale sx sy in let u := unit_roundoff A in
  let s := real_of (match d with D2X => sx | D2Y => sy end) in let x := real_of (coord2 p d) in
  let r := t2_transform_point (t2_inverse t) (t2_transform_point t p) in
  Finite sx -> Finite sy -> Finite (srecip sx) -> Finite (srecip sy) -> Finite2 p -> Finite2 r ->
  Rabs (real_of (coord2 r d) - x) <= ((1 + u) ^ 3 - 1) * Rabs x + min_subnormal A * ((1 + u) ^ 2 * (Rabs (s * x) + / Rabs s) + 2).
Proof.
  intros A sx sy p d. cbv zeta. intros Fx Fy Gx Gy Fp Fr. assert (AF : Affine3x3 (t2_forward (t2_inverse (t2_scale sx sy)))) by (pose proof (aff_sz (A:=A)); unfold Affine3x3; cbn; tauto).
  pose proof (point_fin2 _ _ AF Fr) as Fq. set (q := t2_transform_point (t2_scale sx sy) p) in *. change (m3_mul_point (t2_forward (t2_scale sx sy)) p) with q in Fq.
  destruct (C40_scale_2d_pf A sx sy p v2_zero Fx Fy) as [E1 _]. specialize (E1 Fp). fold q in E1. destruct (C40_scale_2d_pf A (srecip sx) (srecip sy) q v2_zero Gx Gy) as [E2 _]. specialize (E2 Fq).
  change (t2_transform_point (t2_scale (srecip sx) (srecip sy)) q) with (t2_transform_point (t2_inverse (t2_scale sx sy)) q) in E2. destruct (Eqs_realv _ _ (E2 d) (Fr d)) as [F2 R2]. rewrite R2. pose proof (proj1 (Eqs_tx _ _) (E1 d)) as [T1 _].
  set (s := match d with D2X => sx | D2Y => sy end). assert (Fs : Finite s) by (destruct d; assumption).
  assert (T2 : tx (coord2 (mkPoint2 (smul (srecip sx) (p2x q)) (smul (srecip sy) (p2y q))) d) = tx (smul (srecip s) (smul s (coord2 p d)))). { transitivity (tx (smul (srecip s) (coord2 q d))); [destruct d; reflexivity|]. rewrite !(tx_mul (srecip s)). do 2 f_equal. rewrite T1. destruct d; reflexivity. }
  destruct (real_of_eq _ _ T2) as [Q1 Q2]. rewrite (Q2 F2). apply undo_mul; [exact Fs | apply Q1, F2].
Qed.
Lemma C82_undo_scale_3d_pf : forall (A : arith) (sx sy sz : num A) (p : Point3 (num A)) (d : Dimension3), let t := t3_scale sx sy sz in let u := unit_roundoff A in
  let s := real_of (match d with D3X => sx | D3Y => sy | D3Z => sz end) in let x := real_of (coord3 p d) in
  let r := t3_transform_point (t3_inverse t) (t3_transform_point t p) in
  Finite sx -> Finite sy -> Finite sz -> Finite (srecip sx) -> Finite (srecip sy) -> Finite (srecip sz) -> Finite3 p -> Finite3 r ->
  Rabs (real_of (coord3 r d) - x) <= ((1 + u) ^ 3 - 1) * Rabs x + min_subnormal A * ((1 + u) ^ 2 * (Rabs (s * x) + / Rabs s) + 2).
Proof.
  intros A sx sy sz p d. cbv zeta. intros Fx Fy Fz Gx Gy Gz Fp Fr. assert (AF : Affine4x4 (t3_forward (t3_inverse (t3_scale sx sy sz)))) by (pose proof (aff_sz (A:=A)); unfold Affine4x4; cbn; tauto).
  pose proof (point_fin3 _ _ AF Fr) as Fq. set (q := t3_transform_point (t3_scale sx sy sz) p) in *. change (m4_mul_point (t3_forward (t3_scale sx sy sz)) p) with q in Fq.
  destruct (C40_scale_3d_pf A sx sy sz p v3_zero Fx Fy Fz) as [E1 _]. specialize (E1 Fp). fold q in E1. destruct (C40_scale_3d_pf A (srecip sx) (srecip sy) (srecip sz) q v3_zero Gx Gy Gz) as [E2 _]. specialize (E2 Fq).
  change (t3_transform_point (t3_scale (srecip sx) (srecip sy) (srecip sz)) q) with (t3_transform_point (t3_inverse (t3_scale sx sy sz)) q) in E2. destruct (Eqs_realv _ _ (E2 d) (Fr d)) as [F2 R2]. rewrite R2. pose proof (proj1 (Eqs_tx _ _) (E1 d)) as [T1 _].
  set (s := match d with D3X => sx | D3Y => sy | D3Z => sz end). assert (Fs : Finite s) by (destruct d; assumption).
  assert (T2 : tx (coord3 (mkPoint3 (smul (srecip sx) (p3x q)) (smul (srecip sy) (p3y q)) (smul (srecip sz) (p3z q))) d) = tx (smul (srecip s) (smul s (coord3 p d)))). { transitivity (tx (smul (srecip s) (coord3 q d))); [destruct d; reflexivity|]. rewrite !(tx_mul (srecip s)). do 2 f_equal. rewrite T1. destruct d; reflexivity. }
  destruct (real_of_eq _ _ T2) as [Q1 Q2]. rewrite (Q2 F2). apply undo_mul; [exact Fs | apply Q1, F2].
Qed.
Lemma sum_lin3 n a b c d f1 f2 f3 f4 : sum_n n (fun k => a * f1 k + b * f2 k + c * f3 k + d * f4 k) = a * sum_n n f1 + b * sum_n n f2 + c * sum_n n f3 + d * sum_n n f4.
Proof. induction n as [|n IH]; cbn; [ring|]. rewrite IH. ring. Qed.
Lemma sum_1 n : sum_n n (fun _ => 1) = INR n.
Proof. induction n as [|n IH]; [reflexivity|]. rewrite S_INR. cbn [sum_n]. rewrite IH. reflexivity. Qed.
Lemma mm_ap n (a b : matrix) r c : mat_mul n a b r c = mat_apply n a (fun k => b k c) r.
Proof. reflexivity. Qed.
Lemma prod_err (g e a b v w V W : R) : 1 <= g -> 0 <= e -> Rabs v <= V -> Rabs w <= W -> Rabs (a - v) <= (g - 1) * V + e -> Rabs (b - w) <= (g - 1) * W + e ->
  Rabs (a * b - v * w) <= (g ^ 2 - 1) * (V * W) + g * e * V + g * e * W + e ^ 2 * 1.
Proof.
  intros G E Hv Hw Ha Hb. pose proof (Rabs_pos v). pose proof (Rabs_pos w). replace (a * b - v * w) with (a * (b - w) + (a - v) * w) by ring. eapply Rle_trans; [apply Rabs_triang|]. rewrite !Rabs_mult.
  assert (A : Rabs a <= g * V + e). { replace a with ((a - v) + v) by ring. eapply Rle_trans; [apply Rabs_triang|]. lra. }
  replace ((g ^ 2 - 1) * (V * W) + g * e * V + g * e * W + e ^ 2 * 1) with ((g * V + e) * ((g - 1) * W + e) + ((g - 1) * V + e) * W) by ring.
  apply Rplus_le_compat; apply Rmult_le_compat; try apply Rabs_pos; assumption.
Qed.
Lemma mul_abs n (a b : matrix) r c : Rabs (mat_mul n a b r c) <= mat_mul n (mat_abs a) (mat_abs b) r c.
Proof. unfold mat_mul. eapply Rle_trans; [apply sum_abs|]. apply sum_le. intros k _. rewrite Rabs_mult. apply Rle_refl. Qed.
Lemma then_real n (G1 G2 F1 F2 G F : matrix) (g e : R) r c : (r < n)%nat -> (c < n)%nat -> 1 <= g -> 0 <= e ->
  let V := mat_mul n (mat_abs G1) (mat_abs G2) in let W := mat_mul n (mat_abs F2) (mat_abs F1) in
  (forall k, (k < n)%nat -> Rabs (G r k - mat_mul n G1 G2 r k) <= (g - 1) * V r k + e) -> (forall k, (k < n)%nat -> Rabs (F k c - mat_mul n F2 F1 k c) <= (g - 1) * W k c + e) ->
  undo_defect n G F r c <= undo_defect n G1 F1 r c + mat_mul n (mat_mul n (mat_abs G1) (undo_defect n G2 F2)) (mat_abs F1) r c +
    (g ^ 2 - 1) * mat_mul n V W r c + e * (g * (sum_n n (fun k => V r k) + sum_n n (fun k => W k c)) + INR n * e).
Proof.
  cbv zeta. intros Hr Hc Hg He HG HF. set (V := mat_mul n (mat_abs G1) (mat_abs G2)) in *. set (W := mat_mul n (mat_abs F2) (mat_abs F1)) in *.
  set (X := mat_mul n (mat_mul n G1 G2) (mat_mul n F2 F1) r c).
  assert (S1 : Rabs (mat_mul n G F r c - X) <= (g ^ 2 - 1) * mat_mul n V W r c + e * (g * (sum_n n (fun k => V r k) + sum_n n (fun k => W k c)) + INR n * e)).
  { unfold X. unfold mat_mul at 1 2. replace (sum_n n (fun k => G r k * F k c) - sum_n n (fun k => mat_mul n G1 G2 r k * mat_mul n F2 F1 k c)) with (sum_n n (fun k => G r k * F k c - mat_mul n G1 G2 r k * mat_mul n F2 F1 k c)).
    2: { transitivity (sum_n n (fun k => 1 * (G r k * F k c) + (-1) * (mat_mul n G1 G2 r k * mat_mul n F2 F1 k c))); [apply sum_ext; intros; ring | rewrite sum_lin; ring]. }
    eapply Rle_trans; [apply sum_abs|]. eapply Rle_trans; [apply sum_le; intros k Hk; apply (prod_err g e _ _ _ _ (V r k) (W k c) Hg He (mul_abs n G1 G2 r k) (mul_abs n F2 F1 k c) (HG k Hk) (HF k Hk))|].
    rewrite (sum_lin3 n (g ^ 2 - 1) (g * e) (g * e) (e ^ 2) (fun k => V r k * W k c) (fun k => V r k) (fun k => W k c) (fun _ => 1)), sum_1. change (mat_mul n V W r c) with (sum_n n (fun k => V r k * W k c)). right. ring. }
  assert (S2 : Rabs (X - mat_mul n G1 F1 r c) <= mat_mul n (mat_mul n (mat_abs G1) (undo_defect n G2 F2)) (mat_abs F1) r c).
  { unfold X. rewrite !mm_ap, !apply_mul. change (fun k => mat_mul n F2 F1 k c) with (mat_apply n F2 (fun k => F1 k c)). set (x := fun k => F1 k c).
    replace (mat_apply n G1 (mat_apply n G2 (mat_apply n F2 x)) r - mat_apply n G1 x r) with (mat_apply n G1 (fun j => mat_apply n (fun r c => mat_mul n G2 F2 r c - mat_id r c) x j) r).
    - apply apply_abs; [exact Hr | intros; apply Rle_refl|]. intros j Hj. apply apply_abs; [exact Hj | intros; apply Rle_refl | intros; apply Rle_refl].
    - unfold mat_apply at 1 3 6. transitivity (sum_n n (fun k => 1 * (G1 r k * mat_apply n G2 (mat_apply n F2 x) k) + (-1) * (G1 r k * x k))); [|rewrite sum_lin; ring]. apply sum_ext. intros j Hj.
      rewrite <- (apply_mul n G2 F2 x j), <- (apply_id n x j Hj) at 1. unfold mat_apply. replace (sum_n n (fun k => (mat_mul n G2 F2 j k - mat_id j k) * x k)) with (sum_n n (fun k => 1 * (mat_mul n G2 F2 j k * x k) + (-1) * (mat_id j k * x k))) by (apply sum_ext; intros; ring). rewrite sum_lin. ring. }
  unfold undo_defect at 1. replace (mat_mul n G F r c - mat_id r c) with ((mat_mul n G F r c - X) + ((X - mat_mul n G1 F1 r c) + (mat_mul n G1 F1 r c - mat_id r c))) by ring.
  eapply Rle_trans; [apply Rabs_triang|]. eapply Rle_trans; [apply Rplus_le_compat_l, Rabs_triang|]. unfold undo_defect at 1. lra.
Qed.
Lemma inv_real n (G N M D : matrix) r c : (r < n)%nat -> (c < n)%nat -> mat_eq n (mat_mul n N M) mat_id -> (forall k, (k < n)%nat -> Rabs (G r k - N r k) <= D r k) ->
  undo_defect n G M r c <= mat_mul n D (mat_abs M) r c.
Proof.
  intros Hr Hc E H. unfold undo_defect. rewrite <- (E r c Hr Hc). unfold mat_mul. replace (sum_n n (fun k => G r k * M k c) - sum_n n (fun k => N r k * M k c)) with (sum_n n (fun k => (G r k - N r k) * M k c)).
  - eapply Rle_trans; [apply sum_abs|]. apply sum_le. intros k Hk. rewrite Rabs_mult. apply Rmult_le_compat_r; [apply Rabs_pos | auto].
  - transitivity (sum_n n (fun k => 1 * (G r k * M k c) + (-1) * (N r k * M k c))); [apply sum_ext; intros; ring | rewrite sum_lin; ring].
Qed.
Lemma C82_and_then_defect_2d_pf : forall (A : arith) (t1 t2 : Transform2 (num A)) (r c : nat), (r < 3)%nat -> (c < 3)%nat ->
  let t := t2_and_then t1 t2 in let u := unit_roundoff A in let e := 3 * min_subnormal A in
  let F := ent3 (RM3 (t2_forward t)) in let G := ent3 (RM3 (t2_forward (t2_inverse t))) in
  let F1 := ent3 (RM3 (t2_forward t1)) in let G1 := ent3 (RM3 (t2_forward (t2_inverse t1))) in
  let F2 := ent3 (RM3 (t2_forward t2)) in let G2 := ent3 (RM3 (t2_forward (t2_inverse t2))) in
  let V := mat_mul 3 (mat_abs G1) (mat_abs G2) in let W := mat_mul 3 (mat_abs F2) (mat_abs F1) in
  MFinite3 (t2_forward t) -> MFinite3 (t2_forward (t2_inverse t)) ->
  undo_defect 3 G F r c <= undo_defect 3 G1 F1 r c + mat_mul 3 (mat_mul 3 (mat_abs G1) (undo_defect 3 G2 F2)) (mat_abs F1) r c +
    ((1 + u) ^ (2 * 3) - 1) * mat_mul 3 V W r c + e * ((1 + u) ^ 3 * (sum_n 3 (fun k => V r k) + sum_n 3 (fun k => W k c)) + 3 * e).
Proof.
  intros A t1 t2 r c Hr Hc. cbv zeta. intros FF FG. pose proof (u_pos (A:=A)) as U. pose proof (t_pos (A:=A)) as T.
  pose proof (then_real 3 _ _ _ _ _ _ ((1 + unit_roundoff A) ^ 3) (3 * min_subnormal A) r c Hr Hc (g_ge1 _ _ (proj1 U)) ltac:(lra) (fun k Hk => prod_acc2 _ _ r k FG Hr Hk) (fun k Hk => prod_acc2 _ _ k c FF Hk Hc)) as P. cbv zeta in P.
  rewrite <- pow_mult in P. replace (INR 3) with 3 in P by (cbn; lra). exact P.
Qed.
Lemma C82_and_then_defect_3d_pf : forall (A : arith) (t1 t2 : Transform3 (num A)) (r c : nat), (r < 4)%nat -> (c < 4)%nat ->
  let t := t3_and_then t1 t2 in let u := unit_roundoff A in let e := 4 * min_subnormal A in
  let F := ent4 (RM4 (t3_forward t)) in let G := ent4 (RM4 (t3_forward (t3_inverse t))) in
  let F1 := ent4 (RM4 (t3_forward t1)) in let G1 := ent4 (RM4 (t3_forward (t3_inverse t1))) in
  let F2 := ent4 (RM4 (t3_forward t2)) in let G2 := ent4 (RM4 (t3_forward (t3_inverse t2))) in
  let V := mat_mul 4 (mat_abs G1) (mat_abs G2) in let W := mat_mul 4 (mat_abs F2) (mat_abs F1) in
  MFinite4 (t3_forward t) -> MFinite4 (t3_forward (t3_inverse t)) ->
  undo_defect 4 G F r c <= undo_defect 4 G1 F1 r c + mat_mul 4 (mat_mul 4 (mat_abs G1) (undo_defect 4 G2 F2)) (mat_abs F1) r c +
    ((1 + u) ^ (2 * 4) - 1) * mat_mul 4 V W r c + e * ((1 + u) ^ 4 * (sum_n 4 (fun k => V r k) + sum_n 4 (fun k => W k c)) + 4 * e).
Proof.
  intros A t1 t2 r c Hr Hc. cbv zeta. intros FF FG. pose proof (u_pos (A:=A)) as U. pose proof (t_pos (A:=A)) as T.
  pose proof (then_real 4 _ _ _ _ _ _ ((1 + unit_roundoff A) ^ 4) (4 * min_subnormal A) r c Hr Hc (g_ge1 _ _ (proj1 U)) ltac:(lra) (fun k Hk => prod_acc3 _ _ r k FG Hr Hk) (fun k Hk => prod_acc3 _ _ k c FF Hk Hc)) as P. cbv zeta in P.
  rewrite <- pow_mult in P. replace (INR 4) with 4 in P by (cbn; lra). exact P.
Qed.
Lemma C82_try_from_defect_2d_pf : forall (A : arith) (m : Matrix3x3 (num A)) (t : Transform2 (num A)) (B : R), Forall (fun x => Rabs (real_of x) <= B) (m3_comps m) ->
  t2_try_from m = Ok t -> let F := ent3 (RM3 (t2_forward t)) in let G := ent3 (RM3 (t2_forward (t2_inverse t))) in
  MFinite3 (t2_forward (t2_inverse t)) -> (exists r c, (r < 3)%nat /\ (c < 3)%nat /\ G r c <> 0) ->
  let M := ent3 (RM3 m) in let u := unit_roundoff A in let h := min_subnormal A in
  let E := ((1 + u) ^ 7 - 1) * mat_perm 3 (mat_abs M) + 6 * h * (B + 1) in E < Rabs (mat_det 3 M) ->
  exists N : matrix, mat_eq 3 (mat_mul 3 M N) mat_id /\ mat_eq 3 (mat_mul 3 N M) mat_id /\
  forall r c, (r < 3)%nat -> (c < 3)%nat ->
    undo_defect 3 G F r c <= mat_mul 3 (fun r k => quotient_error (((1 + u) ^ 3 - 1) * cof_size 3 M r k + 2 * h) E h (mat_det 3 M) (N r k)) (mat_abs M) r c.
Proof.
  intros A m t B HB HT. cbv zeta. unfold t2_try_from in HT. destruct (m3_inverse m) as [i|] eqn:Ei; [|discriminate]. injection HT as <-. intros FG NZ HE.
  destruct (C79_inverse_accurate_3x3_pf A m i B HB Ei FG NZ HE) as (N & N1 & N2 & N3). exists N. split; [exact N1|]. split; [exact N2|]. intros r c Hr Hc. apply inv_real with N; [exact Hr | exact Hc | exact N2 | intros k Hk; apply (N3 r k Hr Hk)].
Qed.
Lemma C82_try_from_defect_3d_pf : forall (A : arith) (prof : profile) (m : Matrix4x4 (num A)) (t : Transform3 (num A)) (B : R), Forall (fun x => Rabs (real_of x) <= B) (m4_comps m) ->
  t3_try_from prof m = Ret (Ok t) -> let F := ent4 (RM4 (t3_forward t)) in let G := ent4 (RM4 (t3_forward (t3_inverse t))) in
  MFinite4 (t3_forward (t3_inverse t)) -> (exists r c, (r < 4)%nat /\ (c < 4)%nat /\ G r c <> 0) ->
  let M := ent4 (RM4 m) in let u := unit_roundoff A in let h := min_subnormal A in
  let E := ((1 + u) ^ 11 - 1) * mat_perm 4 (mat_abs M) + h * (24 * B * (B + 1) + 4) in E < Rabs (mat_det 4 M) ->
  exists N : matrix, mat_eq 4 (mat_mul 4 M N) mat_id /\ mat_eq 4 (mat_mul 4 N M) mat_id /\
  forall r c, (r < 4)%nat -> (c < 4)%nat ->
    undo_defect 4 G F r c <= mat_mul 4 (fun r k => quotient_error (((1 + u) ^ 8 - 1) * cof_size 4 M r k + 6 * h * (B + 1)) E h (mat_det 4 M) (N r k)) (mat_abs M) r c.
Proof.
  intros A prof m t B HB HT. cbv zeta. unfold t3_try_from in HT. destruct (m4_inverse prof m) as [[i|]|] eqn:Ei; try discriminate. injection HT as <-. intros FG NZ HE.
  destruct (C79_inverse_accurate_4x4_pf A prof m i B HB Ei FG NZ HE) as (N & N1 & N2 & N3). exists N. split; [exact N1|]. split; [exact N2|]. intros r c Hr Hc. apply inv_real with N; [exact Hr | exact Hc | exact N2 | intros k Hk; apply (N3 r k Hr Hk)].
Qed.
