(** Scalar laws valid both for f32/f64 (any platform) and for exact reals (proofs). *)
From Coq Require Import Bool ZArith Reals Lra Lia.
From Flocq Require Import Core.Zaux Core.Raux Core.Defs Core.Generic_fmt Core.Float_prop Core.FLT Core.Ulp Core.Round_NE IEEE754.BinarySingleNaN.
From Flocq Require Import Plus_error.
From Verif Require Import Scalar Types Float XReal OrdLaws Arith SpecOrder SpecFloat FloatX XArith.
Local Open Scope R_scope.

(** ** Pure facts on extended reals *)
Definition nnx (x : xreal) : Prop := xlt x (Fin 0) = false.
Lemma nnx_alt x : nnx x <-> x = XNaN \/ xle (Fin 0) x = true.
Proof.
  unfold nnx. destruct x as [a| | |]; cbn; try (split; auto; fail); [|split; [discriminate | intros [H|H]; discriminate]].
  split.
  - destruct (Rlt_bool_spec a 0); [discriminate|]. intros _. right. now apply Rle_bool_true.
  - intros [H|H]; [discriminate|]. apply Rlt_bool_false. now destruct (Rle_bool_spec 0 a).
Qed.
Lemma nnx_fin r : nnx (Fin r) <-> 0 <= r.
Proof. unfold nnx. rewrite xlt_fin_f. reflexivity. Qed.
Lemma xsigned_inf_nn a : 0 <= a -> nnx (xsigned_inf a).
Proof. intros H. unfold xsigned_inf. destruct (Rlt_bool_spec 0 a); [reflexivity|]. rewrite Rlt_bool_false by lra. reflexivity. Qed.
Lemma xadd_nn x y : nnx x -> nnx y -> nnx (xadd x y).
Proof.
  destruct x as [a| | |], y as [b| | |]; cbn [xadd]; rewrite ?nnx_fin; try (intros; discriminate); try reflexivity; try (intros; assumption).
  intros; lra.
Qed.
Lemma xmul_nn x y : nnx x -> nnx y -> nnx (xmul x y).
Proof.
  destruct x as [a| | |], y as [b| | |]; cbn [xmul]; rewrite ?nnx_fin; try (intros; discriminate); try reflexivity; try (intros; assumption).
  - intros. now apply Rmult_le_pos.
  - intros. now apply xsigned_inf_nn.
  - intros. now apply xsigned_inf_nn.
Qed.
Lemma xsqr_nn x : nnx (xmul x x).
Proof. destruct x as [a| | |]; cbn [xmul]; try reflexivity. rewrite nnx_fin. nra. Qed.
Lemma xsqrt_nn x : nnx (xsqrt x).
Proof. destruct x as [a| | |]; cbn [xsqrt]; try reflexivity. destruct (Rlt_bool a 0); [reflexivity|]. rewrite nnx_fin. apply sqrt_pos. Qed.
Lemma xsqrt_mono x y : xle (Fin 0) x = true -> xle x y = true -> xle (xsqrt x) (xsqrt y) = true.
Proof.
  destruct x as [a| | |], y as [b| | |]; try discriminate; try reflexivity; rewrite ?xle_fin.
  - intros. cbn [xsqrt]. rewrite !Rlt_bool_false by lra. apply xle_fin. apply sqrt_le_1; lra.
  - intros. cbn [xsqrt]. rewrite !Rlt_bool_false by lra. reflexivity.
Qed.
Lemma xsub_nn x y : xle x y = true -> nnx (xsub y x).
Proof.
  destruct x as [a| | |], y as [b| | |]; try discriminate; try reflexivity.
  rewrite xle_fin. intros. cbn. apply nnx_fin. lra.
Qed.
Lemma xneg_xneg x : xneg (xneg x) = x.
Proof. destruct x; cbn; try reflexivity. f_equal. ring. Qed.
Lemma xsub_anti x y : xsub y x = xneg (xsub x y).
Proof. destruct x, y; cbn; try reflexivity. f_equal. ring. Qed.
Lemma xmul_neg_neg x y : xmul (xneg x) (xneg y) = xmul x y.
Proof.
  assert (S : forall a, xneg (xsigned_inf (- a)) = xsigned_inf a).
  { intros a. unfold xsigned_inf. destruct (Rlt_bool_spec 0 a), (Rlt_bool_spec a 0), (Rlt_bool_spec 0 (- a)), (Rlt_bool_spec (- a) 0); cbn; try reflexivity; lra. }
  assert (S' : forall a, xsigned_inf (- a) = xneg (xsigned_inf a)).
  { intros a. rewrite <- (S a). now rewrite xneg_xneg. }
  destruct x, y; cbn [xneg xmul]; try reflexivity; rewrite ?S, ?S'; try reflexivity. f_equal. ring.
Qed.

Section A.
Context {A : arith}.
Implicit Types x y z : num A.

Lemma xr_nnx (x : xreal) : nnx x -> nnx (xr A x).
Proof. rewrite !nnx_alt. intros [->|H]; [left; apply xr_xnan | right; now apply xr_nn]. Qed.
Lemma NotNeg_tx x : NotNeg x <-> nnx (tx x).
Proof. unfold NotNeg, nnx. now rewrite tx_lt, tx_0. Qed.
Lemma NoNaN_tx x : NoNaN x <-> tx x <> XNaN.
Proof. unfold NoNaN. rewrite tx_nan. apply xnan_false. Qed.
Lemma Le_tx x y : Le x y <-> xle (tx x) (tx y) = true.
Proof. unfold Le. now rewrite tx_le. Qed.
Lemma Lt_tx x y : Lt x y <-> xlt (tx x) (tx y) = true.
Proof. unfold Lt. now rewrite tx_lt. Qed.
Lemma Eqs_tx x y : Eqs x y <-> tx x = tx y /\ tx x <> XNaN.
Proof. unfold Eqs. rewrite tx_eq, xeq_eq, xnan_false. reflexivity. Qed.
Lemma Finite_tx x : Finite x <-> exists r, tx x = Fin r.
Proof.
  unfold Finite. rewrite tx_lt, tx_abs, tx_inf. destruct (tx x); cbn; split; try discriminate; eauto; try (intros [? H]; discriminate).
Qed.

Lemma add_NotNeg x y : NotNeg x -> NotNeg y -> NotNeg (sadd x y).
Proof. rewrite !NotNeg_tx, tx_add. intros. apply xr_nnx. now apply xadd_nn. Qed.
Lemma mul_NotNeg x y : NotNeg x -> NotNeg y -> NotNeg (smul x y).
Proof. rewrite !NotNeg_tx, tx_mul. intros. apply xr_nnx. now apply xmul_nn. Qed.
Lemma sqr_NotNeg x : NotNeg (smul x x).
Proof. rewrite !NotNeg_tx, tx_mul. apply xr_nnx. apply xsqr_nn. Qed.
Lemma sqrt_NotNeg x : NotNeg (ssqrt x).
Proof. rewrite !NotNeg_tx, tx_sqrt. apply xr_nnx. apply xsqrt_nn. Qed.
Lemma sub_NotNeg x y : Le x y -> NotNeg (ssub y x).
Proof. rewrite Le_tx, !NotNeg_tx, tx_sub. intros. apply xr_nnx. now apply xsub_nn. Qed.
Lemma two_NotNeg : NotNeg (stwo : num A).
Proof. rewrite NotNeg_tx, tx_2. apply nnx_fin. lra. Qed.
Lemma NotNeg_Le x : NotNeg x -> NoNaN x -> Le szero x.
Proof. rewrite NotNeg_tx, NoNaN_tx, Le_tx, tx_0, nnx_alt. intros [?|?]; tauto. Qed.
Lemma sub_finite_NoNaN x y : Finite x -> Finite y -> NoNaN (ssub x y).
Proof.
  rewrite !Finite_tx, NoNaN_tx, tx_sub. intros [r ->] [s ->]. apply xnan_false. rewrite xr_nan. reflexivity.
Qed.
Lemma sqrt_mono x y : Le szero x -> Le x y -> Le (ssqrt x) (ssqrt y).
Proof. rewrite !Le_tx, tx_0, !tx_sqrt. intros. apply xr_mono. now apply xsqrt_mono. Qed.
Lemma sub_anti x y : NoNaN (ssub x y) -> Eqs (ssub x y) (sneg (ssub y x)).
Proof. rewrite NoNaN_tx, Eqs_tx, tx_neg, !tx_sub, <- xr_neg, <- xsub_anti. auto. Qed.
Lemma abs_NotNeg x : NotNeg (sabs x).
Proof.
  rewrite NotNeg_tx, tx_abs. destruct (tx x) as [a| | |]; cbn [xabs]; try reflexivity. apply nnx_fin. apply Rabs_pos.
Qed.
Lemma sqrt_NoNaN x : Le szero x -> NoNaN (ssqrt x).
Proof.
  rewrite Le_tx, tx_0, NoNaN_tx, tx_sqrt. intros H. apply xnan_false. rewrite xr_nan.
  destruct (tx x) as [a| | |]; try discriminate; try reflexivity. cbn [xsqrt]. rewrite Rlt_bool_false; [reflexivity|]. now apply xle_fin.
Qed.
Lemma sqrt_NoNaN_inv x : NotNeg x -> NoNaN (ssqrt x) -> NoNaN x.
Proof. rewrite NotNeg_tx, !NoNaN_tx, tx_sqrt. intros H N E. apply N. rewrite E. apply xr_xnan. Qed.
Lemma add_NoNaN_inv x y : NoNaN (sadd x y) -> NoNaN x /\ NoNaN y.
Proof. rewrite !NoNaN_tx, tx_add, <- xnan_false, xr_nan, xnan_false. destruct (tx x), (tx y); cbn; split; congruence. Qed.
Lemma sub_NoNaN_inv x y : NoNaN (ssub x y) -> NoNaN x /\ NoNaN y.
Proof. rewrite !NoNaN_tx, tx_sub, <- xnan_false, xr_nan, xnan_false. destruct (tx x), (tx y); cbn; split; congruence. Qed.
Lemma mul_NoNaN_inv x y : NoNaN (smul x y) -> NoNaN x /\ NoNaN y.
Proof. rewrite !NoNaN_tx, tx_mul, <- xnan_false, xr_nan, xnan_false. destruct (tx x), (tx y); cbn [xmul]; split; congruence. Qed.
Lemma add_mono x x' y y' : Le x x' -> Le y y' -> NoNaN (sadd x y) -> NoNaN (sadd x' y') -> Le (sadd x y) (sadd x' y').
Proof.
  rewrite !NoNaN_tx, !Le_tx, !tx_add, <- !xnan_false, !xr_nan, !xnan_false. intros H K N N'. apply xr_mono.
  destruct (tx x) as [a| | |], (tx x') as [a'| | |], (tx y) as [b| | |], (tx y') as [b'| | |]; try discriminate; try reflexivity;
    try (exfalso; apply N; reflexivity); try (exfalso; apply N'; reflexivity).
  rewrite xle_fin in H, K. cbn [xadd]. apply xle_fin. lra.
Qed.
Lemma neg_anti x y : Le x y -> Le (sneg y) (sneg x).
Proof.
  rewrite !Le_tx, !tx_neg. destruct (tx x) as [a| | |], (tx y) as [b| | |]; try discriminate; try reflexivity.
  cbn [xneg]. rewrite !xle_fin. lra.
Qed.
Lemma sub_mono x x' y y' : Le x x' -> Le y' y -> NoNaN (ssub x y) -> NoNaN (ssub x' y') -> Le (ssub x y) (ssub x' y').
Proof.
  rewrite !NoNaN_tx, !Le_tx, !tx_sub, <- !xnan_false, !xr_nan, !xnan_false. intros H K N N'. apply xr_mono.
  destruct (tx x) as [a| | |], (tx x') as [a'| | |], (tx y) as [b| | |], (tx y') as [b'| | |]; try discriminate; try reflexivity;
    try (exfalso; apply N; reflexivity); try (exfalso; apply N'; reflexivity).
  rewrite xle_fin in H, K. cbn [xsub xneg xadd]. apply xle_fin. lra.
Qed.
Lemma mul_mono x x' y y' : Le szero x -> Le x x' -> Le szero y -> Le y y' -> NoNaN (smul x y) -> NoNaN (smul x' y') -> Le (smul x y) (smul x' y').
Proof.
  rewrite !NoNaN_tx, !Le_tx, !tx_mul, tx_0, <- !xnan_false, !xr_nan, !xnan_false. intros X H Y K N N'. apply xr_mono.
  destruct (tx x) as [a| | |], (tx x') as [a'| | |], (tx y) as [b| | |], (tx y') as [b'| | |]; try discriminate;
    rewrite ?xle_fin in X; rewrite ?xle_fin in Y; rewrite ?xle_fin in H; rewrite ?xle_fin in K; cbn [xmul] in *; try reflexivity.
  - apply xle_fin. apply Rmult_le_compat; lra.
  - unfold xsigned_inf in *. destruct (Rlt_bool_spec 0 a'); [reflexivity|]. rewrite Rlt_bool_false in N' by lra. now elim N'.
  - unfold xsigned_inf in *. destruct (Rlt_bool_spec 0 a'); [|rewrite Rlt_bool_false in N' by lra; now elim N'].
    destruct (Rlt_bool_spec 0 a); [reflexivity|]. rewrite Rlt_bool_false in N by lra. now elim N.
  - unfold xsigned_inf in *. destruct (Rlt_bool_spec 0 b'); [reflexivity|]. rewrite Rlt_bool_false in N' by lra. now elim N'.
  - unfold xsigned_inf in *. destruct (Rlt_bool_spec 0 a); [reflexivity|]. rewrite Rlt_bool_false in N by lra. now elim N.
  - unfold xsigned_inf in *. destruct (Rlt_bool_spec 0 b'); [|rewrite Rlt_bool_false in N' by lra; now elim N'].
    destruct (Rlt_bool_spec 0 b); [reflexivity|]. rewrite Rlt_bool_false in N by lra. now elim N.
  - unfold xsigned_inf in *. destruct (Rlt_bool_spec 0 b); [reflexivity|]. rewrite Rlt_bool_false in N by lra. now elim N.
Qed.
End A.

(** ** Bit-level facts *)
Lemma finite_ext {f} (x y : F f) : is_finite x = true -> is_finite y = true -> B2R x = B2R y -> Bsign x = Bsign y -> x = y.
Proof. intros. now apply B2R_Bsign_inj. Qed.
Lemma toX_inf_eq {f} (x y : F f) : toX x = toX y -> is_finite x = false -> x = y.
Proof. destruct x as [|[]| |], y as [|[]| |]; cbn; try discriminate; reflexivity. Qed.
Lemma fmul_neg_neg {f} (x y : F f) : fmul (fneg x) (fneg y) = fmul x y.
Proof.
  destruct x as [sx|sx| |sx mx ex Hx], y as [sy|sy| |sy my ey Hy]; try reflexivity; cbn; try (destruct sx, sy; reflexivity).
  assert (E : xorb (negb sx) (negb sy) = xorb sx sy) by (destruct sx, sy; reflexivity).
  apply B2SF_inj. rewrite !B2SF_SF2B. now rewrite E.
Qed.
(* y - x is -(x - y), or both are +0 *)
Lemma fsub_swap {f} (x y : F f) : fsub y x = fneg (fsub x y) \/ fsub y x = fzero /\ fsub x y = fzero.
Proof.
  assert (E : toX (fsub y x) = xneg (toX (fsub x y))) by (rewrite !toX_sub, <- xround_neg, <- xsub_anti; reflexivity).
  destruct (is_finite (fsub y x)) eqn:Fi.
  2: { left. apply toX_inf_eq; [|assumption]. now rewrite toX_neg. }
  assert (Fi' : is_finite (fsub x y) = true).
  { rewrite toX_finite in E by assumption. destruct (fsub x y) as [|[]| |]; try discriminate; reflexivity. }
  destruct (is_finite x) eqn:Fx.
  2: { exfalso. destruct x as [|[]| |], y as [|[]| |]; discriminate. }
  destruct (is_finite y) eqn:Fy.
  2: { exfalso. destruct y as [|[]| |], x as [|[]| |]; discriminate. }
  pose proof (Bminus_correct (prec f) (emax f) (prec_gt_0 f) (prec_lt_emax f) mode_NE x y Fx Fy) as C1.
  pose proof (Bminus_correct (prec f) (emax f) (prec_gt_0 f) (prec_lt_emax f) mode_NE y x Fy Fx) as C2.
  fold (fsub x y) in C1. fold (fsub y x) in C2.
  assert (O : forall (z : F f) s, is_finite z = true -> B2SF z <> binary_overflow (prec f) (emax f) mode_NE s).
  { intros z s Hz. unfold binary_overflow. cbn. destruct z; discriminate. }
  destruct Rlt_bool in C1; [|elim (O _ _ Fi' (proj1 C1))].
  destruct Rlt_bool in C2; [|elim (O _ _ Fi (proj1 C2))].
  destruct C1 as (V1 & _ & S1), C2 as (V2 & _ & S2).
  destruct (Req_dec (B2R x) (B2R y)) as [Q|Q].
  - assert (Z1 : B2R (fsub x y) = 0). { rewrite V1, Q, Rminus_diag_eq by reflexivity. apply round_0; auto with typeclass_instances. }
    assert (Z2 : B2R (fsub y x) = 0). { rewrite V2, Q, Rminus_diag_eq by reflexivity. apply round_0; auto with typeclass_instances. }
    rewrite Rcompare_Eq in S1, S2 by lra.
    assert (K1 : fsub x y = B754_zero (Bsign (fsub x y))) by (apply finite_ext; auto).
    assert (K2 : fsub y x = B754_zero (Bsign (fsub y x))) by (apply finite_ext; auto).
    rewrite S1 in K1. rewrite S2 in K2. rewrite K1, K2.
    destruct (Bsign x), (Bsign y); auto.
  - left. apply finite_ext; [assumption | unfold fneg; now rewrite is_finite_Bopp | |].
    + unfold fneg. rewrite B2R_Bopp, V1, V2.
      change (rnd f (B2R y - B2R x) = - rnd f (B2R x - B2R y)). rewrite <- rnd_opp. f_equal. ring.
    + unfold fneg. rewrite Bsign_Bopp by (destruct (fsub x y); try discriminate; reflexivity). rewrite S1, S2.
      destruct (Rtotal_order (B2R x) (B2R y)) as [L|[L|L]]; [|contradiction|].
      * rewrite (Rcompare_Lt (B2R x - B2R y)) by lra. now rewrite Rcompare_Gt by lra.
      * rewrite (Rcompare_Gt (B2R x - B2R y)) by lra. now rewrite Rcompare_Lt by lra.
Qed.

Section A2.
Context {A : arith}.
Implicit Types x y z : num A.
Lemma mul_neg_neg x y : smul (sneg x) (sneg y) = smul x y.
Proof. destruct A; [apply fmul_neg_neg | apply xmul_neg_neg]. Qed.
Lemma sqr_sub_swap x y : smul (ssub y x) (ssub y x) = smul (ssub x y) (ssub x y).
Proof.
  destruct A as [f P|].
  - change (fmul (fsub y x) (fsub y x) = fmul (fsub x y) (fsub x y)).
    destruct (fsub_swap x y) as [->|[-> ->]]; [apply fmul_neg_neg | reflexivity].
  - change (xmul (xsub y x) (xsub y x) = xmul (xsub x y) (xsub x y)). rewrite (xsub_anti x y). apply xmul_neg_neg.
Qed.
Lemma abs_sub_swap x y : sabs (ssub y x) = sabs (ssub x y).
Proof.
  destruct A as [f P|].
  - change (fabs (fsub y x) = fabs (fsub x y)).
    destruct (fsub_swap x y) as [->|[-> ->]]; [|reflexivity]. unfold fabs, fneg. destruct (fsub x y); reflexivity.
  - change (xabs (xsub y x) = xabs (xsub x y)). rewrite (xsub_anti x y). destruct (xsub x y); cbn; try reflexivity. now rewrite Rabs_Ropp.
Qed.

(** ** The midpoint of two finite scalars lies between them *)
Lemma half_diff_le f a b : repr f a -> repr f b -> a <= b -> rnd f (rnd f (b - a) * / 2) <= b - a.
Proof.
  intros Ha Hb L. destruct (Req_dec a b) as [->|N].
  - replace (b - b) with 0 by ring. rewrite rnd_0, Rmult_0_l, rnd_0. lra.
  - set (D := b - a). assert (P : 0 < D) by (unfold D; lra).
    set (dn := round radix2 (fexp_f f) Zfloor D).
    assert (Fdn : repr f dn) by (apply generic_format_round; auto with typeclass_instances).
    assert (Ldn : dn <= D) by apply (round_DN_pt radix2 (fexp_f f) D).
    assert (Pdn : 0 < dn).
    { assert (dn <> 0).
      { unfold dn, D, Rminus. apply round_plus_neq_0; first [exact Hb | now apply repr_opp | lra | apply valid_rnd_DN | apply fexp_valid | idtac].
        apply monotone_exp_not_FTZ; auto with typeclass_instances. }
      assert (0 <= dn). { apply round_ge_generic; auto with typeclass_instances; [apply repr_0 | lra]. }
      lra. }
    assert (U : rnd f D <= dn + ulp radix2 (fexp_f f) dn).
    { destruct (generic_format_EM radix2 (fexp_f f) D) as [G|G].
      - rewrite (rnd_repr f D G). unfold dn. rewrite round_generic by (auto with typeclass_instances). pose proof (ulp_ge_0 radix2 (fexp_f f) D). lra.
      - apply Rle_trans with (round radix2 (fexp_f f) Zceil D).
        + destruct (round_DN_or_UP radix2 (fexp_f f) ZnearestE D) as [E|E]; unfold rnd; rewrite E.
          * apply Rle_trans with D; [apply (round_DN_pt radix2 (fexp_f f) D) | apply (round_UP_pt radix2 (fexp_f f) D)].
          * lra.
        + rewrite round_UP_DN_ulp by assumption. fold dn. rewrite <- (ulp_DN radix2 (fexp_f f) D) by lra. fold dn. lra. }
    pose proof (ulp_le_id radix2 (fexp_f f) dn Pdn Fdn).
    apply Rle_trans with dn; [|assumption]. rewrite <- (rnd_repr f dn Fdn). apply rnd_mono. lra.
Qed.
Lemma repr_tx f P (x : num (IEEE f P)) r : tx x = Fin r -> repr f r /\ Rabs r < fmax_bound f.
Proof. intros H. apply toX_fin_iff in H. destruct H as [_ <-]. split; [apply repr_B2R | apply B2R_bound]. Qed.
Lemma center_between (lo hi : num A) : Finite lo -> Finite hi -> Le lo hi -> Finite (ssub hi lo) ->
  let c := sadd lo (smul (ssub hi lo) shalf) in Le lo c /\ Le c hi.
Proof.
  rewrite !Finite_tx, !Le_tx, tx_sub. intros [a Ea] [b Eb] L [w Ew]. cbv zeta. rewrite !Le_tx.
  rewrite tx_add, tx_mul, tx_sub, Ew, tx_half. rewrite Ea, Eb in *. apply xle_fin in L. cbn [xmul].
  destruct A as [f P|].
  - destruct (repr_tx f P lo a Ea) as [Ra Ba]. destruct (repr_tx f P hi b Eb) as [Rb Bb].
    cbn [xsub xadd xneg] in Ew. change (xr (IEEE f P)) with (xround f) in *.
    assert (W : w = rnd f (b - a)). { change (b + - a) with (b - a) in Ew. destruct (xround_cases f (b - a)); congruence. }
    pose proof (half_diff_le f a b Ra Rb L) as H. rewrite <- W in H.
    assert (W0 : 0 <= w) by (rewrite W; apply rnd_nn; lra).
    assert (H0 : 0 <= rnd f (w * / 2)) by (apply rnd_nn; lra).
    assert (B : rnd f (w * / 2) < fmax_bound f).
    { assert (Q : w < fmax_bound f). { change (b + - a) with (b - a) in Ew. destruct (xround_cases f (b - a)); [|discriminate|discriminate]. lra. }
      apply Rle_lt_trans with w; [|assumption]. rewrite <- (rnd_repr f w) at 2 by (rewrite W; apply repr_rnd). apply rnd_mono. lra. }
    assert (E : xround f (Fin (w * / 2)) = Fin (rnd f (w * / 2))).
    { pose proof (fmax_pos f). destruct (xround_cases f (w * / 2)); [reflexivity | lra | lra]. }
    rewrite E. cbn [xadd].
    assert (X : forall r z : R, repr f r -> Rabs r < fmax_bound f -> (r <= z -> xle (Fin r) (xround f (Fin z)) = true) /\ (z <= r -> xle (xround f (Fin z)) (Fin r) = true)).
    { intros r z Hr Br. rewrite <- (xround_repr f r Hr Br) at 1 2. split; intros; apply xround_mono; now apply xle_fin. }
    split; [apply (X a) | apply (X b)]; try assumption; lra.
  - cbn in Ew. assert (w = b + - a) by congruence. cbn [xr xadd]. split; apply xle_fin; lra.
Qed.
End A2.
