(** Proofs: transforming rays in floating point (C83). *)
From Coq Require Import Bool NArith ZArith Reals List Lra Lia.
From Flocq Require Import Core.Zaux Core.Raux Core.Defs Core.Generic_fmt Core.FLT IEEE754.BinarySingleNaN.
From Verif Require Import Scalar Types Vector2 Vector3 Point2 Point3 Ray BoundingBox2 BoundingBox3 Transform2 Transform3 Float
  XReal OrdLaws Arith SpecOrder SpecStruct SpecFloat SpecReal SpecErr SpecSame SpecChain ExactMat FloatX XArith FloatLaws FloatTrans ErrBase FloatErr ChainReal FloatChain ExVals.
Import ListNotations.
Local Open Scope R_scope.
Lemma apply_lin n (m : matrix) (x y : nat -> R) s r : sum_n n (fun k => m r k * (x k + s * y k)) = mat_apply n m x r + s * mat_apply n m y r.
Proof. unfold mat_apply. rewrite (sum_ext n (fun k => m r k * (x k + s * y k)) (fun k => 1 * (m r k * x k) + s * (m r k * y k))) by (intros; ring). rewrite sum_lin. ring. Qed.
Lemma C83_evaluate_then_transform_2d_pf : forall (A : arith) (t : Transform2 (num A)) (ray : Ray2 (num A)) (s : num A) (d : Dimension2), let u := unit_roundoff A in let i := dim2_index d in
  let M := ent3 (RM3 (t2_forward t)) in let o := RP2 (r2_origin ray) in let v := RV2 (r2_direction ray) in let q := t2_transform_point t (r2_at ray s) in
  Affine3x3 (t2_forward t) -> Finite2 q ->
  Rabs (real_of (coord2 q d) - (mat_apply 3 M (hom2 o) i + real_of s * mat_apply 3 M (dir2 v) i)) <=
  ((1 + u) ^ (3 + 2) - 1) * (mat_apply 3 (mat_abs M) (hom2 (absP2 o)) i + Rabs (real_of s) * mat_apply 3 (mat_abs M) (dir2 (absV2 v)) i) +
  min_subnormal A * ((1 + u) ^ 3 * sum_n 3 (fun k => mat_abs M i k) + 2).
Proof.
  intros A t ray s d. cbv zeta. intros AF F. pose proof (u_pos (A:=A)) as U. pose proof (t_pos (A:=A)) as T. pose proof (point_fin2 _ _ AF F) as Fa.
  pose proof (pt_step2 _ _ (dim2_index d) (dim_lt2 d) AF Fa F) as P. set (M := ent3 (RM3 (t2_forward t))) in *. set (i := dim2_index d) in *. set (o := RP2 (r2_origin ray)). set (v := RV2 (r2_direction ray)).
  pose proof (bstep 3 (fun k => M i k) (fun k => hom2 (RP2 (r2_at ray s)) k) (fun k => hom2 o k + real_of s * dir2 v k) (fun k => hom2 (absP2 o) k + Rabs (real_of s) * dir2 (absV2 v) k) (fun _ => 1) ((1 + unit_roundoff A) ^ 3) ((1 + unit_roundoff A) ^ 2) (min_subnormal A) 2 (hom2 (RP2 (m3_mul_point (t2_forward t) (r2_at ray s))) i) (g_ge1 _ _ (proj1 U))) as Q.
  cbv beta in Q. rewrite (apply_lin 3 M (hom2 o) (dir2 v) (real_of s) i) in Q. change (fun k => Rabs (M i k) * (hom2 (absP2 o) k + Rabs (real_of s) * dir2 (absV2 v) k)) with (fun k => mat_abs M i k * (hom2 (absP2 o) k + Rabs (real_of s) * dir2 (absV2 v) k)) in Q. rewrite (apply_lin 3 (mat_abs M) (hom2 (absP2 o)) (dir2 (absV2 v)) (Rabs (real_of s)) i) in Q.
  rewrite (sum_ext 3 (fun k => Rabs (M i k) * 1) (fun k => mat_abs M i k)) in Q by (intros; unfold mat_abs; ring). rewrite pow_add.
  replace (real_of (coord2 (t2_transform_point t (r2_at ray s)) d)) with (hom2 (RP2 (m3_mul_point (t2_forward t) (r2_at ray s))) i) by (destruct d; reflexivity).
  apply Q; [| |exact P].
  - intros k Hk. assert (K : k = 2%nat \/ exists d, k = dim2_index d). { destruct (Nat.eq_dec k 2); [left; assumption|right]. destruct k as [|[|k]]; [exists D2X | exists D2Y | lia]; reflexivity. } destruct K as [->|[d' ->]].
    + cbn [hom2 dir2 nth]. rewrite Rmult_0_r, Rplus_0_r, Rminus_diag_eq, Rabs_R0 by reflexivity. pose proof (g_ge1 (unit_roundoff A) 2 (proj1 U)). rewrite Rmult_0_r, Rplus_0_r. lra.
    + pose proof (C59_ray_at_accurate_2d_pf A ray s d' (Fa d')) as R. cbv zeta in R. fold o v in R.
      replace (hom2 (RP2 (r2_at ray s)) (dim2_index d')) with (real_of (coord2 (r2_at ray s) d')) by (destruct d'; reflexivity). replace (hom2 o (dim2_index d') + real_of s * dir2 v (dim2_index d')) with (coord2 o d' + vcoord2 v d' * real_of s) by (destruct d'; cbn; ring).
      replace (hom2 (absP2 o) (dim2_index d') + Rabs (real_of s) * dir2 (absV2 v) (dim2_index d')) with (Rabs (coord2 o d') + Rabs (vcoord2 v d') * Rabs (real_of s)) by (destruct d'; cbn; ring). lra.
  - intros k Hk. eapply Rle_trans; [apply Rabs_triang|]. rewrite Rabs_mult, hom_abs2, dir_abs2. apply Rle_refl.
Qed.
Lemma C83_evaluate_then_transform_3d_pf : forall (A : arith) (t : Transform3 (num A)) (ray : Ray3 (num A)) (s : num A) (d : Dimension3), let u := unit_roundoff A in let i := dim3_index d in
  let M := ent4 (RM4 (t3_forward t)) in let o := RP3 (r3_origin ray) in let v := RV3 (r3_direction ray) in let q := t3_transform_point t (r3_at ray s) in
  Affine4x4 (t3_forward t) -> Finite3 q ->
  Rabs (real_of (coord3 q d) - (mat_apply 4 M (hom3 o) i + real_of s * mat_apply 4 M (dir3 v) i)) <=
  ((1 + u) ^ (4 + 2) - 1) * (mat_apply 4 (mat_abs M) (hom3 (absP3 o)) i + Rabs (real_of s) * mat_apply 4 (mat_abs M) (dir3 (absV3 v)) i) +
  min_subnormal A * ((1 + u) ^ 4 * sum_n 4 (fun k => mat_abs M i k) + 3).
Proof.
  intros A t ray s d. cbv zeta. intros AF F. pose proof (u_pos (A:=A)) as U. pose proof (t_pos (A:=A)) as T. pose proof (point_fin3 _ _ AF F) as Fa.
  pose proof (pt_step3 _ _ (dim3_index d) (dim_lt3 d) AF Fa F) as P. set (M := ent4 (RM4 (t3_forward t))) in *. set (i := dim3_index d) in *. set (o := RP3 (r3_origin ray)). set (v := RV3 (r3_direction ray)).
  pose proof (bstep 4 (fun k => M i k) (fun k => hom3 (RP3 (r3_at ray s)) k) (fun k => hom3 o k + real_of s * dir3 v k) (fun k => hom3 (absP3 o) k + Rabs (real_of s) * dir3 (absV3 v) k) (fun _ => 1) ((1 + unit_roundoff A) ^ 4) ((1 + unit_roundoff A) ^ 2) (min_subnormal A) 3 (hom3 (RP3 (m4_mul_point (t3_forward t) (r3_at ray s))) i) (g_ge1 _ _ (proj1 U))) as Q.
  cbv beta in Q. rewrite (apply_lin 4 M (hom3 o) (dir3 v) (real_of s) i) in Q. change (fun k => Rabs (M i k) * (hom3 (absP3 o) k + Rabs (real_of s) * dir3 (absV3 v) k)) with (fun k => mat_abs M i k * (hom3 (absP3 o) k + Rabs (real_of s) * dir3 (absV3 v) k)) in Q. rewrite (apply_lin 4 (mat_abs M) (hom3 (absP3 o)) (dir3 (absV3 v)) (Rabs (real_of s)) i) in Q.
  rewrite (sum_ext 4 (fun k => Rabs (M i k) * 1) (fun k => mat_abs M i k)) in Q by (intros; unfold mat_abs; ring). rewrite pow_add.
  replace (real_of (coord3 (t3_transform_point t (r3_at ray s)) d)) with (hom3 (RP3 (m4_mul_point (t3_forward t) (r3_at ray s))) i) by (destruct d; reflexivity).
  apply Q; [| |exact P].
  - intros k Hk. assert (K : k = 3%nat \/ exists d, k = dim3_index d). { destruct (Nat.eq_dec k 3); [left; assumption|right]. destruct k as [|[|[|k]]]; [exists D3X | exists D3Y | exists D3Z | lia]; reflexivity. } destruct K as [->|[d' ->]].
    + cbn [hom3 dir3 nth]. rewrite Rmult_0_r, Rplus_0_r, Rminus_diag_eq, Rabs_R0 by reflexivity. pose proof (g_ge1 (unit_roundoff A) 2 (proj1 U)). rewrite Rmult_0_r, Rplus_0_r. lra.
    + pose proof (C59_ray_at_accurate_3d_pf A ray s d' (Fa d')) as R. cbv zeta in R. fold o v in R.
      replace (hom3 (RP3 (r3_at ray s)) (dim3_index d')) with (real_of (coord3 (r3_at ray s) d')) by (destruct d'; reflexivity). replace (hom3 o (dim3_index d') + real_of s * dir3 v (dim3_index d')) with (coord3 o d' + vcoord3 v d' * real_of s) by (destruct d'; cbn; ring).
      replace (hom3 (absP3 o) (dim3_index d') + Rabs (real_of s) * dir3 (absV3 v) (dim3_index d')) with (Rabs (coord3 o d') + Rabs (vcoord3 v d') * Rabs (real_of s)) by (destruct d'; cbn; ring). lra.
  - intros k Hk. eapply Rle_trans; [apply Rabs_triang|]. rewrite Rabs_mult, hom_abs3, dir_abs3. apply Rle_refl.
Qed.
Lemma C83_transform_then_evaluate_2d_pf : forall (A : arith) (t : Transform2 (num A)) (ray : Ray2 (num A)) (s : num A) (d : Dimension2), let u := unit_roundoff A in let i := dim2_index d in
  let M := ent3 (RM3 (t2_forward t)) in let o := RP2 (r2_origin ray) in let v := RV2 (r2_direction ray) in let q := r2_at (t2_transform_ray t ray) s in
  Affine3x3 (t2_forward t) -> Finite2 (r2_origin (t2_transform_ray t ray)) -> Finite (coord2 q d) ->
  Rabs (real_of (coord2 q d) - (mat_apply 3 M (hom2 o) i + real_of s * mat_apply 3 M (dir2 v) i)) <=
  ((1 + u) ^ (3 + 2) - 1) * (mat_apply 3 (mat_abs M) (hom2 (absP2 o)) i + Rabs (real_of s) * mat_apply 3 (mat_abs M) (dir2 (absV2 v)) i) +
  min_subnormal A * ((1 + u) ^ 2 * (2 * (1 + Rabs (real_of s))) + 1).
Proof.
  intros A t ray s d. cbv zeta. intros AF FO F. pose proof (u_pos (A:=A)) as U. pose proof (t_pos (A:=A)) as T. pose proof (C59_ray_at_accurate_2d_pf A _ s d F) as R. cbv zeta in R.
  change (r2_origin (t2_transform_ray t ray)) with (m3_mul_point (t2_forward t) (r2_origin ray)) in FO, R. change (r2_direction (t2_transform_ray t ray)) with (m3_mul_vector (t2_forward t) (r2_direction ray)) in R.
  pose proof (pt_step2 _ _ (dim2_index d) (dim_lt2 d) AF (point_fin2 _ _ AF FO) FO) as P.
  assert (FV : Finite (vcoord2 (m3_mul_vector (t2_forward t) (r2_direction ray)) d)). { assert (K : Finite (sadd (coord2 (m3_mul_point (t2_forward t) (r2_origin ray)) d) (smul (vcoord2 (m3_mul_vector (t2_forward t) (r2_direction ray)) d) s))) by (destruct d; exact F). destruct (err_add _ _ K) as (_ & K2 & _). destruct (err_mul _ _ K2) as (K3 & _). exact K3. }
  pose proof (C56_matrix_vector_accurate_2d_pf A _ _ d FV) as V. cbv zeta in V.
  set (M := ent3 (RM3 (t2_forward t))) in *. set (i := dim2_index d) in *. set (o := RP2 (r2_origin ray)) in *. set (v := RV2 (r2_direction ray)) in *.
  set (o' := coord2 (RP2 (m3_mul_point (t2_forward t) (r2_origin ray))) d) in *. set (v' := vcoord2 (RV2 (m3_mul_vector (t2_forward t) (r2_direction ray))) d) in *.
  replace (hom2 (RP2 (m3_mul_point (t2_forward t) (r2_origin ray))) i) with o' in P by (unfold i, o'; destruct d; reflexivity). replace (real_of (vcoord2 (m3_mul_vector (t2_forward t) (r2_direction ray)) d)) with v' in V by (unfold v'; destruct d; reflexivity).
  pose proof (bstep 2 (fun k => match k with O => 1 | _ => real_of s end) (fun k => match k with O => o' | _ => v' end) (fun k => match k with O => mat_apply 3 M (hom2 o) i | _ => mat_apply 3 M (dir2 v) i end)
    (fun k => match k with O => mat_apply 3 (mat_abs M) (hom2 (absP2 o)) i | _ => mat_apply 3 (mat_abs M) (dir2 (absV2 v)) i end) (fun _ => 2) ((1 + unit_roundoff A) ^ 2) ((1 + unit_roundoff A) ^ 3) (min_subnormal A) 1 (real_of (coord2 (r2_at (t2_transform_ray t ray) s) d)) (g_ge1 _ _ (proj1 U))) as Q.
  cbn [sum_n] in Q. rewrite Rabs_R1 in Q.
  assert (Q' := fun H1 H2 H3 => Q H1 H2 H3). clear Q.
  match type of Q' with _ -> _ -> _ -> ?C => assert (QC : C) end.
  { apply Q'.
    - intros [|k] Hk.
      + refine (Rle_trans _ _ _ P _). rewrite (sum_ext 3 (fun k => Rabs (M i k) * Rabs (hom2 o k)) (fun k => mat_abs M i k * hom2 (absP2 o) k)) by (intros; rewrite hom_abs2; reflexivity). right. unfold mat_apply. ring.
      + refine (Rle_trans _ _ _ V _). apply Rplus_le_compat; [|right; ring]. apply Rmult_le_compat_r.
        * apply sum_nn. intros j _. rewrite <- dir_abs2. apply Rmult_le_pos; apply Rabs_pos.
        * apply Rplus_le_compat_r. apply Rle_pow; [lra | lia].
    - intros [|k] Hk; apply apply_abs; try apply dim_lt2; intros; try rewrite hom_abs2; try rewrite dir_abs2; apply Rle_refl.
    - refine (Rle_trans _ _ _ _ (Rle_trans _ _ _ R _)); [right; f_equal; ring | right; ring]. }
  clear Q'. rewrite (Nat.add_comm 3 2), pow_add. refine (Rle_trans _ _ _ _ (Rle_trans _ _ _ QC _)); [right; f_equal; ring | right; ring].
Qed.
Lemma C83_transform_then_evaluate_3d_pf : forall (A : arith) (t : Transform3 (num A)) (ray : Ray3 (num A)) (s : num A) (d : Dimension3), let u := unit_roundoff A in let i := dim3_index d in
  let M := ent4 (RM4 (t3_forward t)) in let o := RP3 (r3_origin ray) in let v := RV3 (r3_direction ray) in let q := r3_at (t3_transform_ray t ray) s in
  Affine4x4 (t3_forward t) -> Finite3 (r3_origin (t3_transform_ray t ray)) -> Finite (coord3 q d) ->
  Rabs (real_of (coord3 q d) - (mat_apply 4 M (hom3 o) i + real_of s * mat_apply 4 M (dir3 v) i)) <=
  ((1 + u) ^ (4 + 2) - 1) * (mat_apply 4 (mat_abs M) (hom3 (absP3 o)) i + Rabs (real_of s) * mat_apply 4 (mat_abs M) (dir3 (absV3 v)) i) +
  min_subnormal A * ((1 + u) ^ 2 * (3 * (1 + Rabs (real_of s))) + 1).
Proof.
  intros A t ray s d. cbv zeta. intros AF FO F. pose proof (u_pos (A:=A)) as U. pose proof (t_pos (A:=A)) as T. pose proof (C59_ray_at_accurate_3d_pf A _ s d F) as R. cbv zeta in R.
  change (r3_origin (t3_transform_ray t ray)) with (m4_mul_point (t3_forward t) (r3_origin ray)) in FO, R. change (r3_direction (t3_transform_ray t ray)) with (m4_mul_vector (t3_forward t) (r3_direction ray)) in R.
  pose proof (pt_step3 _ _ (dim3_index d) (dim_lt3 d) AF (point_fin3 _ _ AF FO) FO) as P.
  assert (FV : Finite (vcoord3 (m4_mul_vector (t3_forward t) (r3_direction ray)) d)). { assert (K : Finite (sadd (coord3 (m4_mul_point (t3_forward t) (r3_origin ray)) d) (smul (vcoord3 (m4_mul_vector (t3_forward t) (r3_direction ray)) d) s))) by (destruct d; exact F). destruct (err_add _ _ K) as (_ & K2 & _). destruct (err_mul _ _ K2) as (K3 & _). exact K3. }
  pose proof (C56_matrix_vector_accurate_3d_pf A _ _ d FV) as V. cbv zeta in V.
  set (M := ent4 (RM4 (t3_forward t))) in *. set (i := dim3_index d) in *. set (o := RP3 (r3_origin ray)) in *. set (v := RV3 (r3_direction ray)) in *.
  set (o' := coord3 (RP3 (m4_mul_point (t3_forward t) (r3_origin ray))) d) in *. set (v' := vcoord3 (RV3 (m4_mul_vector (t3_forward t) (r3_direction ray))) d) in *.
  replace (hom3 (RP3 (m4_mul_point (t3_forward t) (r3_origin ray))) i) with o' in P by (unfold i, o'; destruct d; reflexivity). replace (real_of (vcoord3 (m4_mul_vector (t3_forward t) (r3_direction ray)) d)) with v' in V by (unfold v'; destruct d; reflexivity).
  pose proof (bstep 2 (fun k => match k with O => 1 | _ => real_of s end) (fun k => match k with O => o' | _ => v' end) (fun k => match k with O => mat_apply 4 M (hom3 o) i | _ => mat_apply 4 M (dir3 v) i end)
    (fun k => match k with O => mat_apply 4 (mat_abs M) (hom3 (absP3 o)) i | _ => mat_apply 4 (mat_abs M) (dir3 (absV3 v)) i end) (fun _ => 3) ((1 + unit_roundoff A) ^ 2) ((1 + unit_roundoff A) ^ 4) (min_subnormal A) 1 (real_of (coord3 (r3_at (t3_transform_ray t ray) s) d)) (g_ge1 _ _ (proj1 U))) as Q.
  cbn [sum_n] in Q. rewrite Rabs_R1 in Q.
  assert (Q' := fun H1 H2 H3 => Q H1 H2 H3). clear Q.
  match type of Q' with _ -> _ -> _ -> ?C => assert (QC : C) end.
  { apply Q'.
    - intros [|k] Hk.
      + refine (Rle_trans _ _ _ P _). rewrite (sum_ext 4 (fun k => Rabs (M i k) * Rabs (hom3 o k)) (fun k => mat_abs M i k * hom3 (absP3 o) k)) by (intros; rewrite hom_abs3; reflexivity). right. unfold mat_apply. ring.
      + refine (Rle_trans _ _ _ V _). apply Rplus_le_compat; [|right; ring]. apply Rmult_le_compat_r.
        * apply sum_nn. intros j _. rewrite <- dir_abs3. apply Rmult_le_pos; apply Rabs_pos.
        * apply Rplus_le_compat_r. apply Rle_pow; [lra | lia].
    - intros [|k] Hk; apply apply_abs; try apply dim_lt3; intros; try rewrite hom_abs3; try rewrite dir_abs3; apply Rle_refl.
    - refine (Rle_trans _ _ _ _ (Rle_trans _ _ _ R _)); [right; f_equal; ring | right; ring]. }
  clear Q'. rewrite (Nat.add_comm 4 2), pow_add. refine (Rle_trans _ _ _ _ (Rle_trans _ _ _ QC _)); [right; f_equal; ring | right; ring].
Qed.
Lemma C83_ray_agrees_2d_pf : forall (A : arith) (t : Transform2 (num A)) (ray : Ray2 (num A)) (s : num A) (d : Dimension2), let u := unit_roundoff A in let i := dim2_index d in
  let M := ent3 (RM3 (t2_forward t)) in let o := RP2 (r2_origin ray) in let v := RV2 (r2_direction ray) in
  let q1 := t2_transform_point t (r2_at ray s) in let q2 := r2_at (t2_transform_ray t ray) s in
  Affine3x3 (t2_forward t) -> Finite2 q1 -> Finite2 (r2_origin (t2_transform_ray t ray)) -> Finite (coord2 q2 d) ->
  Rabs (real_of (coord2 q1 d) - real_of (coord2 q2 d)) <=
  2 * ((1 + u) ^ (3 + 2) - 1) * (mat_apply 3 (mat_abs M) (hom2 (absP2 o)) i + Rabs (real_of s) * mat_apply 3 (mat_abs M) (dir2 (absV2 v)) i) +
  min_subnormal A * ((1 + u) ^ 3 * sum_n 3 (fun k => mat_abs M i k) + 2 + ((1 + u) ^ 2 * (2 * (1 + Rabs (real_of s))) + 1)).
Proof.
  intros A t ray s d. cbv zeta. intros AF F1 FO F2. pose proof (C83_evaluate_then_transform_2d_pf A t ray s d AF F1) as P1. pose proof (C83_transform_then_evaluate_2d_pf A t ray s d AF FO F2) as P2. cbv zeta in P1, P2.
  match type of P1 with Rabs (?a - ?X) <= _ => match goal with |- Rabs (_ - ?b) <= _ => replace (a - b) with ((a - X) - (b - X)) by ring end end. unfold Rminus at 1. eapply Rle_trans; [apply Rabs_triang|]. rewrite Rabs_Ropp. lra.
Qed.
Lemma C83_ray_agrees_3d_pf : forall (A : arith) (t : Transform3 (num A)) (ray : Ray3 (num A)) (s : num A) (d : Dimension3), let u := unit_roundoff A in let i := dim3_index d in
  let M := ent4 (RM4 (t3_forward t)) in let o := RP3 (r3_origin ray) in let v := RV3 (r3_direction ray) in
  let q1 := t3_transform_point t (r3_at ray s) in let q2 := r3_at (t3_transform_ray t ray) s in
  Affine4x4 (t3_forward t) -> Finite3 q1 -> Finite3 (r3_origin (t3_transform_ray t ray)) -> Finite (coord3 q2 d) ->
  Rabs (real_of (coord3 q1 d) - real_of (coord3 q2 d)) <=
  2 * ((1 + u) ^ (4 + 2) - 1) * (mat_apply 4 (mat_abs M) (hom3 (absP3 o)) i + Rabs (real_of s) * mat_apply 4 (mat_abs M) (dir3 (absV3 v)) i) +
  min_subnormal A * ((1 + u) ^ 4 * sum_n 4 (fun k => mat_abs M i k) + 3 + ((1 + u) ^ 2 * (3 * (1 + Rabs (real_of s))) + 1)).
Proof.
  intros A t ray s d. cbv zeta. intros AF F1 FO F2. pose proof (C83_evaluate_then_transform_3d_pf A t ray s d AF F1) as P1. pose proof (C83_transform_then_evaluate_3d_pf A t ray s d AF FO F2) as P2. cbv zeta in P1, P2.
  match type of P1 with Rabs (?a - ?X) <= _ => match goal with |- Rabs (_ - ?b) <= _ => replace (a - b) with ((a - X) - (b - X)) by ring end end. unfold Rminus at 1. eapply Rle_trans; [apply Rabs_triang|]. rewrite Rabs_Ropp. lra.
Qed.
