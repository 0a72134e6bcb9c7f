(** Proof device: operations do not overflow when the operands are bounded by powers of two. *)
From Coq Require Import Bool NArith ZArith Reals List Lra Lia.
From Flocq Require Import Core.Zaux Core.Raux Core.Defs Core.Generic_fmt Core.Float_prop Core.FLT IEEE754.BinarySingleNaN.
From Verif Require Import Scalar Types Float
  XReal OrdLaws Arith SpecOrder SpecFloat SpecReal SpecErr FloatX XArith FloatLaws ErrBase FloatErr FloatRot.
Local Open Scope R_scope.
Definition okexp (A : arith) (i : Z) : Prop := match A with IEEE f _ => (i < emax f)%Z | EXACT => True end.
Lemma okexp_le A i j : okexp A j -> (i <= j)%Z -> okexp A i.
Proof. destruct A; cbn; intros; [lia | exact I]. Qed.
Lemma xr_pow (A : arith) (r : R) (i : Z) : (0 <= i)%Z -> okexp A i -> Rabs r <= bpow radix2 i -> xr A (Fin r) = Fin (@arnd A r) /\ Rabs (@arnd A r) <= bpow radix2 i.
Proof.
  intros I0 K H. unfold arnd. destruct A as [f P|]; [|split; [reflexivity | exact H]]. cbn [xr okexp] in *. apply Rabs_le_inv in H.
  assert (Q : rnd f (bpow radix2 i) = bpow radix2 i) by (apply rnd_repr; apply generic_format_bpow; unfold fexp_f, FLT_exp, femin; destruct f; cbn in *; lia).
  assert (B : bpow radix2 i < fmax_bound f) by (unfold fmax_bound; apply bpow_lt; assumption).
  pose proof (rnd_mono f r (bpow radix2 i) ltac:(lra)) as M1. pose proof (rnd_mono f (- r) (bpow radix2 i) ltac:(lra)) as M. rewrite rnd_opp in M. rewrite Q in *.
  split; [|apply Rabs_le; lra]. destruct (xround_cases f r); [reflexivity | lra | lra].
Qed.
Section B.
Context {A : arith}.
Definition Bk (i : Z) (x : num A) : Prop := Finite x /\ Rabs (real_of x) <= bpow radix2 i.
Lemma Bk_le i j x : Bk i x -> (i <= j)%Z -> Bk j x.
Proof. intros [F B] L. split; [assumption|]. eapply Rle_trans; [exact B | now apply bpow_le]. Qed.
Lemma Bk_mul i j x y : Bk i x -> Bk j y -> (0 <= i + j)%Z -> okexp A (i + j) -> Bk (i + j) (smul x y).
Proof.
  intros [Fx Bx] [Fy By] I K. destruct (xr_pow A (real_of x * real_of y) (i + j) I K) as [E B].
  - rewrite Rabs_mult, bpow_plus. apply Rmult_le_compat; try apply Rabs_pos; assumption.
  - assert (T : tx (smul x y) = Fin (@arnd A (real_of x * real_of y))) by (rewrite tx_mul, (Finite_real _ Fx), (Finite_real _ Fy); exact E).
    destruct (Finite_intro _ _ T) as [F V]. split; [assumption|]. now rewrite V.
Qed.
Lemma Bk_add i j x y : Bk i x -> Bk j y -> (0 <= Z.max i j)%Z -> okexp A (Z.max i j + 1) -> Bk (Z.max i j + 1) (sadd x y).
Proof.
  intros HX HY I K. destruct (Bk_le _ (Z.max i j) _ HX ltac:(lia)) as [Fx Bx]. destruct (Bk_le _ (Z.max i j) _ HY ltac:(lia)) as [Fy By].
  destruct (xr_pow A (real_of x + real_of y) (Z.max i j + 1) ltac:(lia) K) as [E B].
  - rewrite bpow_plus. replace (bpow radix2 1) with 2 by (cbn; lra). eapply Rle_trans; [apply Rabs_triang | lra].
  - assert (T : tx (sadd x y) = Fin (@arnd A (real_of x + real_of y))) by (rewrite tx_add, (Finite_real _ Fx), (Finite_real _ Fy); exact E).
    destruct (Finite_intro _ _ T) as [F V]. split; [assumption|]. now rewrite V.
Qed.
Lemma Bk_neg i x : Bk i x -> Bk i (sneg x).
Proof. intros [F B]. destruct (real_of_neg x F) as [F' V]. split; [assumption|]. now rewrite V, Rabs_Ropp. Qed.
Lemma Bk_sub i j x y : Bk i x -> Bk j y -> (0 <= Z.max i j)%Z -> okexp A (Z.max i j + 1) -> Bk (Z.max i j + 1) (ssub x y).
Proof.
  intros HX HY I K. apply Bk_neg in HY. destruct (Bk_add _ _ _ _ HX HY I K) as [F B]. destruct (real_of_eq _ _ (sub_add x y)) as [E1 E2]. split; [now apply E1|]. now rewrite E2 by (now apply E1).
Qed.
Lemma Bk_div i x y : Bk i x -> Finite y -> / 2 <= Rabs (real_of y) -> (0 <= i + 1)%Z -> okexp A (i + 1) -> Bk (i + 1) (sdiv x y).
Proof.
  intros [Fx Bx] Fy H I K. assert (Y : real_of y <> 0) by (intros E; rewrite E, Rabs_R0 in H; lra).
  destruct (xr_pow A (real_of x / real_of y) (i + 1) I K) as [E B].
  - unfold Rdiv. rewrite Rabs_mult, Rabs_inv, bpow_plus. apply Rmult_le_compat; try apply Rabs_pos; try assumption; [left; apply Rinv_0_lt_compat; lra|].
    replace (bpow radix2 1) with (/ / 2) by (cbn; lra). apply Rinv_le; lra.
  - assert (T : tx (sdiv x y) = Fin (@arnd A (real_of x / real_of y))).
    { rewrite tx_div by (rewrite (Finite_real _ Fy); congruence). rewrite (Finite_real _ Fx), (Finite_real _ Fy). cbn [xdiv]. rewrite Req_bool_false by assumption. exact E. }
    destruct (Finite_intro _ _ T) as [F V]. split; [assumption|]. now rewrite V.
Qed.
Lemma Bk_0 : Bk 0 (szero : num A).
Proof. destruct (Zr_0 (A:=A)) as [F V]. split; [assumption|]. rewrite V, Rabs_R0. apply bpow_ge_0. Qed.
Lemma Bk_1 : Bk 0 (sone : num A).
Proof. destruct (real_of_1 (A:=A)) as [F V]. split; [assumption|]. rewrite V, Rabs_R1. cbn. lra. Qed.
(* a power of two above a given number *)
Lemma pow_above (x : R) : 1 <= x -> exists m, (0 <= m)%Z /\ x <= bpow radix2 m <= 2 * x.
Proof.
  intros H. destruct (mag radix2 x) as [e He]. specialize (He ltac:(lra)). rewrite Rabs_pos_eq in He by lra. exists e. destruct He as [E1 E2].
  assert (bpow radix2 0 < bpow radix2 e) by (cbn; lra). assert (0 < e)%Z by (now apply lt_bpow in H0).
  split; [lia|]. split; [lra|]. replace e with ((e - 1) + 1)%Z by lia. rewrite bpow_plus. replace (bpow radix2 1) with 2 by (cbn; lra). lra.
Qed.
Lemma okexp_sq (x : R) (m k : Z) : 64 * min_subnormal A * (x * x) <= unit_roundoff A -> 0 <= x -> bpow radix2 m <= 2 * x -> (0 <= k <= 54)%Z -> (0 <= m)%Z -> okexp A (m + k).
Proof.
  intros H X0 M Hk M0. destruct A as [f P|]; cbn [okexp unit_roundoff min_subnormal] in *; [|exact I].
  assert (bpow radix2 (m + m + (6 + (3 - emax f - prec f))) <= bpow radix2 (2 - prec f)).
  { unfold Zminus in *. rewrite !bpow_plus in *. replace (bpow radix2 6) with 64 by (cbn; lra). replace (bpow radix2 2) with 4 by (cbn; lra).
    assert (bpow radix2 m * bpow radix2 m <= 2 * x * (2 * x)) by (apply Rmult_le_compat; try apply bpow_ge_0; assumption).
    pose proof (bpow_gt_0 radix2 (- prec f)) as P1. pose proof (bpow_gt_0 radix2 (- emax f)) as P2. replace (bpow radix2 3) with 8 in * by (cbn; lra).
    apply Rle_trans with (2 * x * (2 * x) * (64 * (8 * bpow radix2 (- emax f) * bpow radix2 (- prec f)))); [apply Rmult_le_compat_r; [|assumption] | lra].
    apply Rmult_le_pos; [lra|]. apply Rmult_le_pos; lra. }
  apply le_bpow in H0. destruct f; cbn in *; lia.
Qed.
End B.
