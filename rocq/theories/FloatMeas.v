(** Proofs: accuracy of the measures of a box in floating point (C85). *)
From Coq Require Import Bool NArith ZArith Reals List Lra Lia.
From Flocq Require Import Core.Zaux Core.Raux Core.Defs Core.Generic_fmt Core.FLT IEEE754.BinarySingleNaN.
From Verif Require Import Scalar Types Vector2 Vector3 Point2 Point3 Ray BoundingBox2 BoundingBox3 Transform2 Transform3 Float
  XReal OrdLaws Arith SpecOrder SpecStruct SpecFloat SpecReal SpecErr FloatX XArith FloatLaws FloatTrans ErrBase FloatErr FloatInv ExVals.
Import ListNotations.
Local Open Scope R_scope.
Lemma Apx_ext {A : arith} (h l : num A) : Finite (ssub h l) -> Apx (ssub h l) (real_of h - real_of l) (Rabs (real_of h - real_of l)) 1 0.
Proof.
  intros F. destruct (err_sub _ _ F) as (_ & _ & d & Hd & V). split; [assumption|]. rewrite V. split; [|split; lra].
  replace ((real_of h - real_of l) * (1 + d) - (real_of h - real_of l)) with ((real_of h - real_of l) * d) by ring. rewrite Rabs_mult. cbn [pow]. pose proof (Rabs_pos (real_of h - real_of l)). pose proof (u_pos (A:=A)). nra.
Qed.
Lemma Apx_area {A : arith} (h l h' l' : num A) : Finite (smul (ssub h l) (ssub h' l')) ->
  Apx (smul (ssub h l) (ssub h' l')) ((real_of h - real_of l) * (real_of h' - real_of l')) (Rabs (real_of h - real_of l) * Rabs (real_of h' - real_of l')) 3 (min_subnormal A / 2).
Proof. intros F. eapply Apx_weaken; [apply (Apx_mul _ _ _ _ _ _ _ _ _ _ F (Apx_ext h l) (Apx_ext h' l')) | lia |]. lra. Qed.
Lemma C85_extent_accurate_2d_pf : forall (A : arith) (b : BoundingBox2 (num A)) (d : Dimension2), Finite (bb2_extent b d) ->
  let w := real_of (coord2 (bb2_max b) d) - real_of (coord2 (bb2_min b) d) in
  Rabs (real_of (bb2_extent b d) - w) <= unit_roundoff A * Rabs w.
Proof.
  intros A b d F w. destruct d; unfold w; cbn [bb2_extent coord2] in *; unfold bb2_width, bb2_height, bb3_width, bb3_height, bb3_depth in *;
  (destruct (Apx_ext _ _ F) as (_ & E & _); cbn [pow] in E; eapply Rle_trans; [exact E|]; lra).
Qed.
Lemma C85_extent_accurate_3d_pf : forall (A : arith) (b : BoundingBox3 (num A)) (d : Dimension3), Finite (bb3_extent b d) ->
  let w := real_of (coord3 (bb3_max b) d) - real_of (coord3 (bb3_min b) d) in
  Rabs (real_of (bb3_extent b d) - w) <= unit_roundoff A * Rabs w.
Proof.
  intros A b d F w. destruct d; unfold w; cbn [bb3_extent coord3] in *; unfold bb2_width, bb2_height, bb3_width, bb3_height, bb3_depth in *;
  (destruct (Apx_ext _ _ F) as (_ & E & _); cbn [pow] in E; eapply Rle_trans; [exact E|]; lra).
Qed.
Lemma C85_area_accurate_2d_pf : forall (A : arith) (b : BoundingBox2 (num A)), Finite (bb2_area b) ->
  let w := fun d => real_of (coord2 (bb2_max b) d) - real_of (coord2 (bb2_min b) d) in
  Rabs (real_of (bb2_area b) - w D2X * w D2Y) <= ((1 + unit_roundoff A) ^ 3 - 1) * Rabs (w D2X * w D2Y) + min_subnormal A.
Proof.
  intros A b F w. unfold w. unfold bb2_area, bb2_size, bb2_width, bb2_height in *. cbn [coord2] in *. rewrite Rabs_mult. eapply Apx_bound; [|apply Apx_area; exact F|]; [lia | lra].
Qed.
Lemma C85_volume_accurate_3d_pf : forall (A : arith) (b : BoundingBox3 (num A)), Finite (bb3_volume b) ->
  let w := fun d => real_of (coord3 (bb3_max b) d) - real_of (coord3 (bb3_min b) d) in
  Rabs (real_of (bb3_volume b) - w D3X * w D3Y * w D3Z) <= ((1 + unit_roundoff A) ^ 5 - 1) * Rabs (w D3X * w D3Y * w D3Z) + min_subnormal A * (Rabs (w D3Z) + 1).
Proof.
  intros A b F w. unfold w. unfold bb3_volume, bb3_size, bb3_width, bb3_height, bb3_depth in *. cbn [coord3] in *. rewrite !Rabs_mult. pose proof (t_pos (A:=A)) as T.
  eapply Apx_bound; [|eapply (Apx_mul _ _ _ _ _ _ _ _ _ _ F (Apx_area _ _ _ _) (Apx_ext _ _))|]; [lia | lra].
Qed.
Lemma C85_surface_area_accurate_3d_pf : forall (A : arith) (b : BoundingBox3 (num A)), Finite (bb3_surface_area b) ->
  let w := fun d => real_of (coord3 (bb3_max b) d) - real_of (coord3 (bb3_min b) d) in
  let S := Rabs (w D3X * w D3Y) + Rabs (w D3X * w D3Z) + Rabs (w D3Y * w D3Z) in
  Rabs (real_of (bb3_surface_area b) - 2 * (w D3X * w D3Y + w D3X * w D3Z + w D3Y * w D3Z)) <= ((1 + unit_roundoff A) ^ 6 - 1) * (2 * S) + 7 * min_subnormal A.
Proof.
  intros A b F w S. unfold S, w. clear S w. unfold bb3_surface_area, bb3_diagonal, p3_sub, v3_new in *. cbn [coord3 v3x v3y v3z] in *. rewrite !Rabs_mult. pose proof (t_pos (A:=A)) as T.
  assert (T2 : Finite (stwo : num A) /\ real_of (stwo : num A) = 2) by (apply Finite_intro; apply tx_2). destruct T2 as [F2 V2].
  pose proof (Apx_leaf _ F2) as L. rewrite V2 in L. rewrite (Rabs_right 2) in L by lra.
  eapply Apx_bound; [|eapply (Apx_mul _ _ _ _ _ _ _ _ _ _ F (fun _ => L)); intros F1; eapply (Apx_add _ _ _ _ _ _ 4); [exact F1 | intros F3; eapply (Apx_add _ _ _ _ _ _ 3); [exact F3 | apply Apx_area | apply Apx_area] | intros F3; eapply Apx_weaken; [apply Apx_area; exact F3 | lia | apply Rle_refl]]|]; [lia | lra].
Qed.
Lemma half_err {A : arith} (x y : num A) : Finite (sadd x (smul (ssub y x) shalf)) ->
  exists e, Rabs e <= unit_roundoff A * Rabs (real_of y - real_of x) * (1 + / 1000) + min_subnormal A * (3 / 4) /\
  exists d, Rabs d <= unit_roundoff A /\ real_of (sadd x (smul (ssub y x) shalf)) = (real_of x + (real_of y - real_of x) / 2 + e) * (1 + d).
Proof.
  intros F. destruct (err_add _ _ F) as (Fx & Fm & d & Hd & V). destruct (err_mul _ _ Fm) as (Fs & _ & d2 & f & Hd2 & Hf & V2). destruct (err_sub _ _ Fs) as (Fy & _ & d1 & Hd1 & V1).
  assert (VH : real_of (shalf : num A) = / 2) by (apply Finite_intro; apply tx_half). pose proof (u_pos (A:=A)) as U. pose proof (t_pos (A:=A)) as T.
  rewrite V, V2, V1, VH. set (X := real_of x). set (Y := real_of y). exists ((Y - X) / 2 * (d1 + d2 + d1 * d2) + f). split; [|exists d; split; [assumption | field]].
  eapply Rle_trans; [apply Rabs_triang|]. rewrite Rabs_mult. unfold Rdiv at 1. rewrite Rabs_mult, (Rabs_right (/ 2)) by lra.
  assert (Rabs (d1 + d2 + d1 * d2) <= unit_roundoff A * (2 + / 1000)).
  { eapply Rle_trans; [apply Rabs_triang|]. eapply Rle_trans; [apply Rplus_le_compat_r; apply Rabs_triang|]. rewrite Rabs_mult. pose proof (Rabs_pos d1). pose proof (Rabs_pos d2).
    assert (Rabs d1 * Rabs d2 <= unit_roundoff A * / 16777216) by (apply Rmult_le_compat; lra). lra. }
  pose proof (Rabs_pos (Y - X)). assert (Rabs (Y - X) * / 2 * Rabs (d1 + d2 + d1 * d2) <= Rabs (Y - X) * / 2 * (unit_roundoff A * (2 + / 1000))) by (apply Rmult_le_compat_l; lra).
  assert (0 <= unit_roundoff A * Rabs (Y - X)) by (apply Rmult_le_pos; lra). lra.
Qed.
Lemma C85_center_accurate_2d_pf : forall (A : arith) (b : BoundingBox2 (num A)) (d : Dimension2), Finite (coord2 (bb2_center b) d) ->
  let lo := real_of (coord2 (bb2_min b) d) in let hi := real_of (coord2 (bb2_max b) d) in
  Rabs (real_of (coord2 (bb2_center b) d) - (lo + hi) / 2) <= unit_roundoff A * Rabs ((lo + hi) / 2) + (101 / 100) * unit_roundoff A * Rabs (hi - lo) + min_subnormal A.
Proof.
  intros A b d F lo hi. assert (K : forall x y : num A, Finite (sadd x (smul (ssub y x) shalf)) ->
    Rabs (real_of (sadd x (smul (ssub y x) shalf)) - (real_of x + real_of y) / 2) <= unit_roundoff A * Rabs ((real_of x + real_of y) / 2) + (101 / 100) * unit_roundoff A * Rabs (real_of y - real_of x) + min_subnormal A); [|destruct d; exact (K _ _ F)].
  clear. intros x y F. pose proof (u_pos (A:=A)) as U. pose proof (t_pos (A:=A)) as T.
  destruct (half_err x y F) as (e & He & V). destruct V as (d & Hd & ->).
  set (X := real_of x) in *. set (Y := real_of y) in *. replace ((X + (Y - X) / 2 + e) * (1 + d) - (X + Y) / 2) with ((X + Y) / 2 * d + e * (1 + d)) by lra.
  pose proof (Rabs_pos ((X + Y) / 2)). pose proof (Rabs_pos (Y - X)). pose proof (Rabs_pos e). pose proof (Rabs_pos d).
  eapply Rle_trans; [apply Rabs_triang|]. rewrite !Rabs_mult. assert (Rabs (1 + d) <= 1 + unit_roundoff A). { eapply Rle_trans; [apply Rabs_triang|]. rewrite Rabs_R1. lra. }
  assert (Rabs ((X + Y) / 2) * Rabs d <= Rabs ((X + Y) / 2) * unit_roundoff A) by (apply Rmult_le_compat_l; lra).
  assert (Rabs e * Rabs (1 + d) <= (unit_roundoff A * Rabs (Y - X) * (1 + / 1000) + min_subnormal A * (3 / 4)) * (1 + / 1000)) by (apply Rmult_le_compat; try lra; apply Rabs_pos). 
  assert (0 <= unit_roundoff A * Rabs (Y - X)) by (apply Rmult_le_pos; lra). lra.
Qed.
Lemma C85_center_accurate_3d_pf : forall (A : arith) (b : BoundingBox3 (num A)) (d : Dimension3), Finite (coord3 (bb3_center b) d) ->
  let lo := real_of (coord3 (bb3_min b) d) in let hi := real_of (coord3 (bb3_max b) d) in
  Rabs (real_of (coord3 (bb3_center b) d) - (lo + hi) / 2) <= unit_roundoff A * Rabs ((lo + hi) / 2) + (101 / 100) * unit_roundoff A * Rabs (hi - lo) + min_subnormal A.
Proof.
  intros A b d F lo hi. assert (K : forall x y : num A, Finite (sadd x (smul (ssub y x) shalf)) ->
    Rabs (real_of (sadd x (smul (ssub y x) shalf)) - (real_of x + real_of y) / 2) <= unit_roundoff A * Rabs ((real_of x + real_of y) / 2) + (101 / 100) * unit_roundoff A * Rabs (real_of y - real_of x) + min_subnormal A); [|destruct d; exact (K _ _ F)].
  clear. intros x y F. pose proof (u_pos (A:=A)) as U. pose proof (t_pos (A:=A)) as T.
  destruct (half_err x y F) as (e & He & V). destruct V as (d & Hd & ->).
  set (X := real_of x) in *. set (Y := real_of y) in *. replace ((X + (Y - X) / 2 + e) * (1 + d) - (X + Y) / 2) with ((X + Y) / 2 * d + e * (1 + d)) by lra.
  pose proof (Rabs_pos ((X + Y) / 2)). pose proof (Rabs_pos (Y - X)). pose proof (Rabs_pos e). pose proof (Rabs_pos d).
  eapply Rle_trans; [apply Rabs_triang|]. rewrite !Rabs_mult. assert (Rabs (1 + d) <= 1 + unit_roundoff A). { eapply Rle_trans; [apply Rabs_triang|]. rewrite Rabs_R1. lra. }
  assert (Rabs ((X + Y) / 2) * Rabs d <= Rabs ((X + Y) / 2) * unit_roundoff A) by (apply Rmult_le_compat_l; lra).
  assert (Rabs e * Rabs (1 + d) <= (unit_roundoff A * Rabs (Y - X) * (1 + / 1000) + min_subnormal A * (3 / 4)) * (1 + / 1000)) by (apply Rmult_le_compat; try lra; apply Rabs_pos). 
  assert (0 <= unit_roundoff A * Rabs (Y - X)) by (apply Rmult_le_pos; lra). lra.
Qed.
