(** Running error analysis (proof device): [Apx x r m n a] says the finite scalar x approximates the real r. *)
From Coq Require Import Bool ZArith Reals Lra Lia.
From Flocq Require Import Core.Zaux Core.Raux Core.Defs Core.Generic_fmt Core.FLT Core.Ulp Core.Round_NE IEEE754.BinarySingleNaN.
From Flocq Require Import Relative Div_sqrt_error.
From Flocq Require Import Plus_error.
From Verif Require Import Scalar Types Float XReal OrdLaws Arith SpecOrder SpecFloat SpecErr FloatX XArith FloatLaws.
Local Open Scope R_scope.

Lemma u_ro_eq p : u_ro radix2 p = bpow radix2 (- p).
Proof. unfold u_ro. rewrite bpow_plus. cbn. field. Qed.

Section A.
Context {A : arith}.
Implicit Types x y z : num A.
Notation u := (unit_roundoff A).
Notation t := (min_subnormal A).

Lemma u_pos : 0 <= u <= / 16777216.
Proof.
  destruct A as [f P|]; cbn [unit_roundoff]; [|lra]. split; [apply bpow_ge_0|].
  replace (/ 16777216) with (bpow radix2 (-24)) by (cbn; lra). apply bpow_le. destruct f; cbn; lia.
Qed.
Lemma t_pos : 0 <= t.
Proof. destruct A as [f P|]; cbn [min_subnormal]; [apply bpow_ge_0 | lra]. Qed.
Lemma real_of_tx x r : tx x = Fin r -> real_of x = r.
Proof. destruct A as [f P|]; cbn. - intros H. now apply toX_fin_iff in H. - now intros ->. Qed.
Lemma Finite_real x : Finite x -> tx x = Fin (real_of x).
Proof. rewrite Finite_tx. intros [r E]. now rewrite (real_of_tx x r E). Qed.
Lemma Finite_intro x r : tx x = Fin r -> Finite x /\ real_of x = r.
Proof. intros E. split; [rewrite Finite_tx; eauto | now apply real_of_tx]. Qed.
(* rounding *)
Definition arnd : R -> R := match A with IEEE f _ => rnd f | EXACT => fun r => r end.
Lemma xr_fin_inv r s : xr A (Fin r) = Fin s -> s = arnd r.
Proof. unfold arnd. destruct A as [f P|]; cbn [xr]; [|congruence]. destruct (xround_cases f r); congruence. Qed.
Lemma xr_inv (x : xreal) s : xr A x = Fin s -> exists r, x = Fin r /\ s = arnd r.
Proof.
  intros H. destruct x as [r| | |]; [exists r; split; [reflexivity | now apply xr_fin_inv]|..]; exfalso; revert H;
    rewrite ?xr_pinf, ?xr_ninf, ?xr_xnan; discriminate.
Qed.
Lemma arnd_err r : exists d e, Rabs d <= u /\ Rabs e <= t / 2 /\ arnd r = r * (1 + d) + e.
Proof.
  unfold arnd. destruct A as [f P|]; cbn [unit_roundoff min_subnormal].
  - destruct (error_N_FLT radix2 (femin f) (prec f) (prec_gt_0 f) (fun c : Z => negb (Z.even c)) r) as (d & e & H1 & H2 & _ & H3).
    exists d, e. change (/ 2 * bpow radix2 (- prec f + 1)) with (u_ro radix2 (prec f)) in H1. rewrite u_ro_eq in H1.
    split; [assumption|]. split; [|exact H3]. unfold femin in H2. lra.
  - exists 0, 0. rewrite Rabs_R0. split; [lra|]. split; lra.
Qed.
Lemma err_add x y : Finite (sadd x y) -> Finite x /\ Finite y /\ exists d, Rabs d <= u /\ real_of (sadd x y) = (real_of x + real_of y) * (1 + d).
Proof.
  intros H. pose proof (Finite_real _ H) as E. rewrite tx_add in E. apply xr_inv in E. destruct E as (r & E1 & E2).
  destruct (tx x) as [a| | |] eqn:Ex, (tx y) as [b| | |] eqn:Ey; try discriminate.
  apply Finite_intro in Ex as Fx. apply Finite_intro in Ey as Fy. split; [tauto|]. split; [tauto|].
  destruct Fx as [_ ->], Fy as [_ ->]. cbn in E1. assert (r = a + b) by congruence. subst r. rewrite E2. clear E1 E2 H.
  unfold arnd. revert x y Ex Ey. destruct A as [f P|]; cbn [unit_roundoff]; intros.
  - destruct (repr_tx f P x a Ex) as [Ra _]. destruct (repr_tx f P y b Ey) as [Rb _].
    destruct (FLT_plus_error_N_ex radix2 (femin f) (prec f) (fun c : Z => negb (Z.even c)) a b Ra Rb) as (d & H1 & H2).
    exists d. split; [|exact H2]. rewrite u_ro_eq in H1. eapply Rle_trans; [exact H1|].
    pose proof (bpow_gt_0 radix2 (- prec f)) as P0. apply Rmult_le_reg_r with (1 + bpow radix2 (- prec f)); [lra|].
    unfold Rdiv. rewrite Rmult_assoc, Rinv_l by lra. nra.
  - exists 0. rewrite Rabs_R0. split; lra.
Qed.
Lemma sub_add x y : tx (ssub x y) = tx (sadd x (sneg y)).
Proof. rewrite tx_sub, tx_add, tx_neg. reflexivity. Qed.
Lemma real_of_eq x y : tx x = tx y -> (Finite x <-> Finite y) /\ (Finite x -> real_of x = real_of y).
Proof. intros E. rewrite !Finite_tx, E. split; [tauto|]. intros [r H]. rewrite (real_of_tx y r) by assumption. apply real_of_tx. congruence. Qed.
Lemma real_of_neg x : Finite x -> Finite (sneg x) /\ real_of (sneg x) = - real_of x.
Proof. intros H. pose proof (Finite_real x H) as E. apply Finite_intro. rewrite tx_neg, E. reflexivity. Qed.
Lemma Finite_neg_inv x : Finite (sneg x) -> Finite x.
Proof. rewrite !Finite_tx, tx_neg. intros [r E]. destruct (tx x); try discriminate. eauto. Qed.
Lemma err_sub x y : Finite (ssub x y) -> Finite x /\ Finite y /\ exists d, Rabs d <= u /\ real_of (ssub x y) = (real_of x - real_of y) * (1 + d).
Proof.
  intros H. destruct (real_of_eq _ _ (sub_add x y)) as [E1 E2]. rewrite (E2 H). apply E1 in H. apply err_add in H.
  destruct H as (Fx & Fy & d & H1 & H2). apply Finite_neg_inv in Fy. destruct (real_of_neg y Fy) as [_ N].
  split; [assumption|]. split; [assumption|]. exists d. split; [assumption|]. rewrite H2, N. reflexivity.
Qed.
Lemma err_mul x y : Finite (smul x y) -> Finite x /\ Finite y /\ exists d e, Rabs d <= u /\ Rabs e <= t / 2 /\ real_of (smul x y) = real_of x * real_of y * (1 + d) + e.
Proof.
  intros H. pose proof (Finite_real _ H) as E. rewrite tx_mul in E. apply xr_inv in E. destruct E as (r & E1 & E2).
  assert (S : forall a, xsigned_inf a <> Fin r /\ xneg (xsigned_inf a) <> Fin r).
  { intros a. unfold xsigned_inf. destruct (Rlt_bool 0 a), (Rlt_bool a 0); split; discriminate. }
  destruct (tx x) as [a| | |] eqn:Ex, (tx y) as [b| | |] eqn:Ey; try discriminate;
    try (exfalso; first [exact (proj1 (S a) E1) | exact (proj2 (S a) E1) | exact (proj1 (S b) E1) | exact (proj2 (S b) E1)]).
  apply Finite_intro in Ex as Fx. apply Finite_intro in Ey as Fy. split; [tauto|]. split; [tauto|].
  destruct Fx as [_ ->], Fy as [_ ->]. cbn in E1. assert (r = a * b) by congruence. subst r. rewrite E2. apply arnd_err.
Qed.
(* division by a divisor known to be finite and non-zero *)
Lemma err_div x y : Finite (sdiv x y) -> Finite y -> real_of y <> 0 ->
  Finite x /\ exists d e, Rabs d <= u /\ Rabs e <= t / 2 /\ real_of (sdiv x y) = real_of x / real_of y * (1 + d) + e.
Proof.
  intros H Fy Y. pose proof (Finite_real _ H) as E. pose proof (Finite_real _ Fy) as Ey.
  rewrite tx_div in E by (rewrite Ey; congruence). apply xr_inv in E. destruct E as (r & E1 & E2). rewrite Ey in E1.
  destruct (tx x) as [a| | |] eqn:Ex; cbn [xdiv] in E1; try discriminate; try (destruct (Rlt_bool (real_of y) 0); discriminate).
  apply Finite_intro in Ex as Fx. split; [tauto|]. destruct Fx as [_ ->]. rewrite Req_bool_false in E1 by assumption.
  assert (r = a / real_of y) by congruence. subst r. rewrite E2. apply arnd_err.
Qed.
Lemma err_sqrt x : Finite x -> 0 <= real_of x -> Finite (ssqrt x) /\ exists d, Rabs d <= u /\ real_of (ssqrt x) = sqrt (real_of x) * (1 + d).
Proof.
  intros H P0. pose proof (Finite_real _ H) as E. pose proof (tx_sqrt x) as Q. rewrite E in Q. cbn [xsqrt] in Q. rewrite Rlt_bool_false in Q by assumption.
  assert (F : Finite (ssqrt x)).
  { rewrite Finite_tx, Q. revert x H P0 E Q. destruct A as [f P|]; intros; cbn [xr]; [|eauto].
    pose proof (Bsqrt_correct (prec f) (emax f) (prec_gt_0 f) (prec_lt_emax f) mode_NE x) as (Ec & Fi & Sg).
    change (round radix2 (SpecFloat.fexp (prec f) (emax f)) (round_mode mode_NE)) with (rnd f) in Ec. unfold xround. rewrite Rlt_bool_true; [eauto|].
    cbn [real_of]. rewrite <- Ec. apply abs_B2R_lt_emax. }
  split; [assumption|]. pose proof (Finite_real _ F) as E'. rewrite Q in E'. apply xr_fin_inv in E'. rewrite E'. clear E' F Q.
  unfold arnd. revert x H P0 E. destruct A as [f P|]; cbn [unit_roundoff]; intros.
  - destruct (repr_tx f P x _ E) as [Ra _].
    destruct (sqrt_error_N_FLT_ex radix2 (prec f) (fun c : Z => negb (Z.even c)) ltac:(destruct f; cbn; lia) (femin f) ltac:(destruct f; cbn; lia) _ Ra) as (d & H1 & H2).
    exists d. split; [|exact H2]. rewrite u_ro_eq in H1. eapply Rle_trans; [exact H1|].
    set (b := bpow radix2 (- prec f)). assert (B : 0 < b) by apply bpow_gt_0.
    assert (S : 1 < sqrt (1 + 2 * b) <= 1 + b).
    { split; [rewrite <- sqrt_1 at 1; apply sqrt_lt_1; lra|]. rewrite <- (sqrt_square (1 + b)) by lra. apply sqrt_le_1; nra. }
    apply Rle_trans with (1 - 1 / (1 + b)).
    + unfold Rdiv. rewrite !Rmult_1_l. apply Rplus_le_compat_l. apply Ropp_le_contravar. apply Rinv_le; lra.
    + apply Rmult_le_reg_r with (1 + b); [lra|]. replace ((1 - 1 / (1 + b)) * (1 + b)) with b by (field; lra). nra.
  - exists 0. rewrite Rabs_R0. split; [lra|]. ring.
Qed.

Definition Apx x (r m : R) (n : nat) (a : R) : Prop :=
  Finite x /\ Rabs (real_of x - r) <= ((1 + u) ^ n - 1) * m + a * (1 + u) ^ n /\ Rabs r <= m /\ 0 <= a.

Lemma G_ge1 n : 1 <= (1 + u) ^ n.
Proof. apply pow_R1_Rle. pose proof u_pos. lra. Qed.
Lemma Apx_leaf x : Finite x -> Apx x (real_of x) (Rabs (real_of x)) 0 0.
Proof. intros H. split; [assumption|]. cbn. rewrite Rminus_diag_eq, Rabs_R0 by reflexivity. split; lra. Qed.
Lemma Apx_weaken x r m n a n' a' : Apx x r m n a -> (n <= n')%nat -> a <= a' -> Apx x r m n' a'.
Proof.
  intros (F & E & M & P) Hn Ha. split; [assumption|].
  assert (G : (1 + u) ^ n <= (1 + u) ^ n') by (apply Rle_pow; [pose proof u_pos; lra | lia]).
  pose proof (G_ge1 n). pose proof (Rabs_pos r). split; [|split; lra]. eapply Rle_trans; [exact E|].
  apply Rplus_le_compat; [apply Rmult_le_compat_r; lra | apply Rmult_le_compat; lra].
Qed.
Lemma Apx_add x y r s m k n a b : Finite (sadd x y) -> (Finite x -> Apx x r m n a) -> (Finite y -> Apx y s k n b) -> Apx (sadd x y) (r + s) (m + k) (S n) (a + b).
Proof.
  intros F HX HY. pose proof (err_add x y F) as (Fx & Fy & d & Hd & V). destruct (HX Fx) as (_ & E1 & M1 & P1), (HY Fy) as (_ & E2 & M2 & P2).
  split; [assumption|]. pose proof (G_ge1 n) as G. pose proof u_pos as U. split; [|split; [eapply Rle_trans; [apply Rabs_triang|]; lra | lra]].
  rewrite V. set (X := real_of x) in *. set (Y := real_of y) in *. set (g := (1 + u) ^ n) in *. cbn [pow]. fold g.
  assert (E : Rabs (X + Y - (r + s)) <= (g - 1) * (m + k) + (a + b) * g).
  { replace (X + Y - (r + s)) with ((X - r) + (Y - s)) by ring. eapply Rle_trans; [apply Rabs_triang|]. lra. }
  assert (B : Rabs (X + Y) <= g * (m + k) + (a + b) * g).
  { replace (X + Y) with ((X + Y - (r + s)) + (r + s)) by ring. eapply Rle_trans; [apply Rabs_triang|]. pose proof (Rabs_triang r s). lra. }
  replace ((X + Y) * (1 + d) - (r + s)) with ((X + Y - (r + s)) + (X + Y) * d) by ring.
  eapply Rle_trans; [apply Rabs_triang|]. rewrite Rabs_mult.
  assert (Rabs (X + Y) * Rabs d <= (g * (m + k) + (a + b) * g) * u) by (apply Rmult_le_compat; try apply Rabs_pos; assumption). lra.
Qed.
Lemma Apx_neg x r m n a : Apx x r m n a -> Apx (sneg x) (- r) m n a.
Proof.
  intros (F & E & M & P). destruct (real_of_neg x F) as [F' V]. split; [assumption|]. rewrite V.
  replace (- real_of x - - r) with (- (real_of x - r)) by ring. rewrite !Rabs_Ropp. auto.
Qed.
Lemma Apx_eq x y r m n a : tx x = tx y -> Apx y r m n a -> Apx x r m n a.
Proof. intros E (F & H). destruct (real_of_eq x y E) as [Q1 Q2]. apply Q1 in F. split; [assumption|]. rewrite (Q2 F). exact H. Qed.
Lemma Apx_sub x y r s m k n a b : Finite (ssub x y) -> (Finite x -> Apx x r m n a) -> (Finite y -> Apx y s k n b) -> Apx (ssub x y) (r - s) (m + k) (S n) (a + b).
Proof.
  intros F HX HY. apply Apx_eq with (sadd x (sneg y)); [apply sub_add|]. unfold Rminus. apply Apx_add.
  - now apply (real_of_eq _ _ (sub_add x y)).
  - assumption.
  - intros H. apply Apx_neg, HY. now apply Finite_neg_inv.
Qed.
Lemma Apx_mul x y r s m k n1 n2 a b : Finite (smul x y) -> (Finite x -> Apx x r m n1 a) -> (Finite y -> Apx y s k n2 b) ->
  Apx (smul x y) (r * s) (m * k) (S (n1 + n2)) (a * k + b * m + a * b + t / 2).
Proof.
  intros F HX HY. pose proof (err_mul x y F) as (Fx & Fy & d & e & Hd & He & V). destruct (HX Fx) as (_ & E1 & M1 & P1), (HY Fy) as (_ & E2 & M2 & P2).
  split; [assumption|]. pose proof (G_ge1 n1) as G1. pose proof (G_ge1 n2) as G2. pose proof (G_ge1 (n1 + n2)) as G12. pose proof u_pos as U. pose proof t_pos as T.
  pose proof (Rabs_pos r) as R0. pose proof (Rabs_pos s) as S0.
  split; [|split; [rewrite Rabs_mult; apply Rmult_le_compat; assumption | assert (0 <= a * k) by (apply Rmult_le_pos; lra); assert (0 <= b * m) by (apply Rmult_le_pos; lra); assert (0 <= a * b) by (apply Rmult_le_pos; lra); lra]].
  rewrite V. set (X := real_of x) in *. set (Y := real_of y) in *. cbn [pow]. rewrite pow_add in *. set (g1 := (1 + u) ^ n1) in *. set (g2 := (1 + u) ^ n2) in *.
  set (c := a * k + b * m + a * b) in *.
  assert (BY : Rabs Y <= g2 * (k + b)).
  { replace Y with ((Y - s) + s) by ring. eapply Rle_trans; [apply Rabs_triang|]. lra. }
  assert (E : Rabs (X * Y - r * s) <= (g1 * g2 - 1) * (m * k) + c * (g1 * g2)).
  { replace (X * Y - r * s) with ((X - r) * Y + r * (Y - s)) by ring. eapply Rle_trans; [apply Rabs_triang|]. rewrite !Rabs_mult.
    assert (Rabs (X - r) * Rabs Y <= ((g1 - 1) * m + a * g1) * (g2 * (k + b))) by (apply Rmult_le_compat; try apply Rabs_pos; assumption).
    assert (Rabs r * Rabs (Y - s) <= m * ((g2 - 1) * k + b * g2)) by (apply Rmult_le_compat; try apply Rabs_pos; assumption).
    unfold c. lra. }
  assert (B : Rabs (X * Y) <= g1 * g2 * (m * k) + c * (g1 * g2)).
  { replace (X * Y) with ((X * Y - r * s) + r * s) by ring. eapply Rle_trans; [apply Rabs_triang|].
    assert (Rabs (r * s) <= m * k) by (rewrite Rabs_mult; apply Rmult_le_compat; assumption). lra. }
  replace (X * Y * (1 + d) + e - r * s) with ((X * Y - r * s) + X * Y * d + e) by ring.
  eapply Rle_trans; [apply Rabs_triang|]. eapply Rle_trans; [apply Rplus_le_compat_r, Rabs_triang|]. rewrite (Rabs_mult (X * Y)).
  assert (Rabs (X * Y) * Rabs d <= (g1 * g2 * (m * k) + c * (g1 * g2)) * u) by (apply Rmult_le_compat; try apply Rabs_pos; assumption).
  assert (t / 2 <= t / 2 * ((1 + u) * (g1 * g2))). { rewrite <- (Rmult_1_r (t / 2)) at 1. apply Rmult_le_compat_l; [lra|]. nra. }
  lra.
Qed.
End A.
