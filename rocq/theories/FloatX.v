(** Floating-point arithmetic as rounding of extended-real arithmetic (proof device).
    [xround f] rounds to nearest even and overflows to infinity; every float operation of the model, read through
    [toX], is the exact operation followed by [xround]. *)
From Coq Require Import Bool ZArith Reals Lra Lia.
From Flocq Require Import Core.Zaux Core.Raux Core.Defs Core.Generic_fmt Core.Float_prop Core.FLT Core.Ulp Core.Round_NE Core.Round_pred IEEE754.BinarySingleNaN.
From Verif Require Import Scalar Float XReal OrdLaws.
Local Open Scope R_scope.

Section X.
Context (f : format).
Definition femin : Z := (3 - emax f - prec f)%Z.
Definition fexp_f : Z -> Z := FLT_exp femin (prec f).
Definition rnd (r : R) : R := round radix2 fexp_f ZnearestE r.
Definition repr (r : R) : Prop := generic_format radix2 fexp_f r.
Definition fmax_bound : R := bpow radix2 (emax f).
Global Instance fexp_valid : Valid_exp fexp_f := FLT_exp_valid femin (prec f).
Global Instance fexp_mono : Monotone_exp fexp_f := FLT_exp_monotone femin (prec f).

Lemma rnd_mono x y : x <= y -> rnd x <= rnd y.
Proof. intros H. apply round_le; auto with typeclass_instances. Qed.
Lemma rnd_repr x : repr x -> rnd x = x.
Proof. intros H. apply round_generic; auto with typeclass_instances. Qed.
Lemma repr_rnd x : repr (rnd x).
Proof. apply generic_format_round; auto with typeclass_instances. Qed.
Lemma rnd_0 : rnd 0 = 0.
Proof. apply round_0; auto with typeclass_instances. Qed.
Lemma rnd_opp x : rnd (- x) = - rnd x.
Proof. apply round_NE_opp. Qed.
Lemma rnd_nn x : 0 <= x -> 0 <= rnd x.
Proof. intros H. rewrite <- rnd_0. now apply rnd_mono. Qed.
Lemma rnd_np x : x <= 0 -> rnd x <= 0.
Proof. intros H. rewrite <- rnd_0. now apply rnd_mono. Qed.
Lemma fmax_pos : 0 < fmax_bound.
Proof. apply bpow_gt_0. Qed.
Lemma repr_opp x : repr x -> repr (- x).
Proof. apply generic_format_opp. Qed.
Lemma repr_0 : repr 0.
Proof. apply generic_format_0. Qed.
Lemma repr_B2R (x : F f) : repr (B2R x).
Proof. apply generic_format_B2R. Qed.
Lemma B2R_bound (x : F f) : Rabs (B2R x) < fmax_bound.
Proof. apply abs_B2R_lt_emax. Qed.

Definition xround (x : xreal) : xreal :=
  match x with
  | Fin r => if Rlt_bool (Rabs (rnd r)) fmax_bound then Fin (rnd r) else if Rlt_bool r 0 then NInf else PInf
  | _ => x
  end.

Inductive xround_spec (r : R) : xreal -> Prop :=
| xr_fin : - fmax_bound < rnd r < fmax_bound -> xround_spec r (Fin (rnd r))
| xr_neg : r < 0 -> rnd r <= - fmax_bound -> xround_spec r NInf
| xr_pos : 0 < r -> fmax_bound <= rnd r -> xround_spec r PInf.
Lemma xround_cases r : xround_spec r (xround (Fin r)).
Proof.
  unfold xround. pose proof fmax_pos as P.
  destruct (Rlt_bool_spec (Rabs (rnd r)) fmax_bound) as [H|H].
  - apply Rabs_def2 in H. constructor. lra.
  - destruct (Rlt_bool_spec r 0) as [N|N].
    + assert (rnd r <= 0) by (apply rnd_np; lra). rewrite Rabs_left1 in H by assumption. constructor; lra.
    + assert (0 <= rnd r) by (apply rnd_nn; lra). rewrite Rabs_pos_eq in H by assumption. constructor; [|lra].
      destruct (Req_dec r 0) as [->|]; [|lra]. rewrite rnd_0 in H. lra.
Qed.
Lemma xround_repr r : repr r -> Rabs r < fmax_bound -> xround (Fin r) = Fin r.
Proof. intros H B. unfold xround. rewrite rnd_repr by assumption. now rewrite Rlt_bool_true. Qed.
Lemma xround_toX (x : F f) : xround (toX x) = toX x.
Proof.
  destruct (is_finite x) eqn:E.
  - rewrite toX_finite by assumption. apply xround_repr; [apply repr_B2R | apply B2R_bound].
  - destruct x as [|[]| |]; try discriminate; reflexivity.
Qed.
Lemma xround_0 : xround (Fin 0) = Fin 0.
Proof. apply xround_repr; [apply repr_0|]. rewrite Rabs_R0. apply fmax_pos. Qed.
Lemma xround_mono x y : xle x y = true -> xle (xround x) (xround y) = true.
Proof.
  destruct x as [r| | |], y as [s| | |]; try discriminate; try reflexivity; intros H.
  - assert (L : r <= s). { cbn in H. destruct (Rle_bool_spec r s); [assumption|discriminate]. }
    pose proof (rnd_mono r s L) as M. pose proof fmax_pos.
    destruct (xround_cases r), (xround_cases s); cbn; try reflexivity; try (apply Rle_bool_true; assumption); lra.
  - destruct (xround_cases r); reflexivity.
  - destruct (xround_cases s); reflexivity.
Qed.
Lemma xround_nan x : xnan (xround x) = xnan x.
Proof. destruct x as [r| | |]; try reflexivity. destruct (xround_cases r); reflexivity. Qed.
Lemma xround_neg x : xround (xneg x) = xneg (xround x).
Proof.
  destruct x as [r| | |]; try reflexivity. cbn [xneg]. pose proof fmax_pos.
  pose proof (rnd_opp r) as E. destruct (xround_cases r), (xround_cases (- r)); cbn; try reflexivity; try lra. now rewrite E.
Qed.

(** ** Operations *)
Lemma toX_overflow (x : F f) s : B2SF x = binary_overflow (prec f) (emax f) mode_NE s -> toX x = if s then NInf else PInf.
Proof. unfold binary_overflow. cbn. intros H. destruct x as [| | |]; try discriminate. cbn in H. injection H as ->. now destruct s. Qed.
Lemma Bsign_neg (x : F f) : is_finite x = true -> Bsign x = true -> B2R x <= 0.
Proof.
  destruct x as [s|s| |s m e H]; try discriminate; intros _ E.
  - right. reflexivity.
  - cbn in E. subst. apply F2R_le_0. cbn. lia.
Qed.
Lemma Bsign_pos (x : F f) : is_finite x = true -> Bsign x = false -> 0 <= B2R x.
Proof.
  destruct x as [s|s| |s m e H]; try discriminate; intros _ E.
  - right. reflexivity.
  - cbn in E. subst. apply F2R_ge_0. cbn. lia.
Qed.
Lemma big_not_0 r : ~ Rabs (rnd r) < fmax_bound -> r <> 0.
Proof. intros H ->. apply H. rewrite rnd_0, Rabs_R0. apply fmax_pos. Qed.

Lemma toX_neg (x : F f) : toX (fneg x) = xneg (toX x).
Proof.
  destruct x as [s|[]| |s m e H]; try reflexivity.
  - cbn. f_equal. ring.
  - change (toX (fneg (B754_finite s m e H))) with (Fin (B2R (Bopp (B754_finite s m e H)))). rewrite B2R_Bopp. reflexivity.
Qed.
Lemma toX_abs (x : F f) : toX (fabs x) = xabs (toX x).
Proof.
  destruct x as [s|[]| |s m e H]; try reflexivity.
  - cbn. now rewrite Rabs_R0.
  - change (toX (fabs (B754_finite s m e H))) with (Fin (B2R (Babs (B754_finite s m e H)))). rewrite B2R_Babs. reflexivity.
Qed.
Lemma toX_add (x y : F f) : toX (fadd x y) = xround (xadd (toX x) (toX y)).
Proof.
  destruct (is_finite x) eqn:Fx, (is_finite y) eqn:Fy.
  - rewrite (toX_finite x), (toX_finite y) by assumption. cbn [xadd].
    pose proof (Bplus_correct (prec f) (emax f) (prec_gt_0 f) (prec_lt_emax f) mode_NE x y Fx Fy) as C.
    change (round radix2 (SpecFloat.fexp (prec f) (emax f)) (round_mode mode_NE)) with rnd in C. fold (fadd x y) in C. fold fmax_bound in C.
    unfold xround. destruct (Rlt_bool_spec (Rabs (rnd (B2R x + B2R y))) fmax_bound) as [L|L].
    + destruct C as (E & Fi & _). rewrite toX_finite by assumption. now rewrite E.
    + destruct C as (E & Sg). rewrite (toX_overflow _ _ E).
      assert (N : B2R x + B2R y <> 0) by (apply big_not_0; lra).
      destruct (Bsign x) eqn:S.
      * pose proof (Bsign_neg x Fx S). pose proof (Bsign_neg y Fy (eq_sym Sg)). rewrite Rlt_bool_true; [reflexivity|lra].
      * pose proof (Bsign_pos x Fx S). pose proof (Bsign_pos y Fy (eq_sym Sg)). rewrite Rlt_bool_false; [reflexivity|lra].
  - rewrite (toX_finite x) by assumption. destruct x as [| | |]; try discriminate; destruct y as [|[]| |]; try discriminate; reflexivity.
  - rewrite (toX_finite y) by assumption. destruct y as [| | |]; try discriminate; destruct x as [|[]| |]; try discriminate; reflexivity.
  - destruct x as [|[]| |]; try discriminate; destruct y as [|[]| |]; try discriminate; reflexivity.
Qed.
Lemma fsub_add (x y : F f) : fsub x y = fadd x (fneg y).
Proof. destruct x as [sx|sx| |sx mx ex Hx], y as [sy|sy| |sy my ey Hy]; reflexivity. Qed.
Lemma toX_sub (x y : F f) : toX (fsub x y) = xround (xsub (toX x) (toX y)).
Proof. rewrite fsub_add, toX_add, toX_neg. reflexivity. Qed.
Lemma toX_mul (x y : F f) : toX (fmul x y) = xround (xmul (toX x) (toX y)).
Proof.
  destruct (is_finite x) eqn:Fx, (is_finite y) eqn:Fy.
  - rewrite (toX_finite x), (toX_finite y) by assumption. cbn [xmul].
    pose proof (Bmult_correct (prec f) (emax f) (prec_gt_0 f) (prec_lt_emax f) mode_NE x y) as C.
    change (round radix2 (SpecFloat.fexp (prec f) (emax f)) (round_mode mode_NE)) with rnd in C. fold (fmul x y) in C. fold fmax_bound in C.
    unfold xround. destruct (Rlt_bool_spec (Rabs (rnd (B2R x * B2R y))) fmax_bound) as [L|L].
    + destruct C as (E & Fi & _). rewrite Fx, Fy in Fi. rewrite toX_finite by exact Fi. now rewrite E.
    + rewrite (toX_overflow _ _ C).
      assert (N : B2R x * B2R y <> 0) by (apply big_not_0; lra).
      destruct (Bsign x) eqn:Sx, (Bsign y) eqn:Sy; cbn [xorb];
        [pose proof (Bsign_neg x Fx Sx) as X; pose proof (Bsign_neg y Fy Sy) as Y | pose proof (Bsign_neg x Fx Sx) as X; pose proof (Bsign_pos y Fy Sy) as Y
        | pose proof (Bsign_pos x Fx Sx) as X; pose proof (Bsign_neg y Fy Sy) as Y | pose proof (Bsign_pos x Fx Sx) as X; pose proof (Bsign_pos y Fy Sy) as Y].
      * rewrite Rlt_bool_false; [reflexivity|]. replace (B2R x * B2R y) with ((- B2R x) * (- B2R y)) by ring. apply Rmult_le_pos; lra.
      * rewrite Rlt_bool_true; [reflexivity|]. assert (0 <= (- B2R x) * B2R y) by (apply Rmult_le_pos; lra). lra.
      * rewrite Rlt_bool_true; [reflexivity|]. assert (0 <= B2R x * - B2R y) by (apply Rmult_le_pos; lra). lra.
      * rewrite Rlt_bool_false; [reflexivity|]. apply Rmult_le_pos; lra.
  - assert (Z : xmul (toX x) (toX y) = toX (fmul x y)).
    { destruct x as [sx|sx| |sx mx ex Hx]; try discriminate; destruct y as [|sy| |]; try discriminate.
      - destruct sy; cbn; unfold xsigned_inf; cbn; rewrite !Rlt_bool_false by lra; reflexivity.
      - reflexivity.
      - assert (P : 0 < B2R (B754_finite false mx ex Hx)) by (now apply F2R_gt_0).
        assert (N : B2R (B754_finite true mx ex Hx) < 0) by (now apply F2R_lt_0).
        rewrite toX_finite by reflexivity. destruct sx, sy; cbn [toX xmul]; unfold xsigned_inf;
          [rewrite Rlt_bool_false by lra; rewrite Rlt_bool_true by lra | rewrite Rlt_bool_false by lra; rewrite Rlt_bool_true by lra | rewrite Rlt_bool_true by lra | rewrite Rlt_bool_true by lra]; reflexivity.
      - destruct sx; reflexivity. }
    rewrite Z. symmetry. apply xround_toX.
  - assert (Z : xmul (toX x) (toX y) = toX (fmul x y)).
    { destruct y as [sx|sx| |sx mx ex Hx]; try discriminate; destruct x as [|sy| |]; try discriminate.
      - destruct sy; cbn; unfold xsigned_inf; cbn; rewrite !Rlt_bool_false by lra; reflexivity.
      - reflexivity.
      - assert (P : 0 < B2R (B754_finite false mx ex Hx)) by (now apply F2R_gt_0).
        assert (N : B2R (B754_finite true mx ex Hx) < 0) by (now apply F2R_lt_0).
        rewrite (toX_finite (B754_finite sx mx ex Hx)) by reflexivity. destruct sx, sy; cbn [toX xmul]; unfold xsigned_inf;
          [rewrite Rlt_bool_false by lra; rewrite Rlt_bool_true by lra | rewrite Rlt_bool_false by lra; rewrite Rlt_bool_true by lra | rewrite Rlt_bool_true by lra | rewrite Rlt_bool_true by lra]; reflexivity.
      - destruct sx; reflexivity. }
    rewrite Z. symmetry. apply xround_toX.
  - destruct x as [|[]| |]; try discriminate; destruct y as [|[]| |]; try discriminate; reflexivity.
Qed.
(* division, by a divisor that is not a zero *)
Lemma toX_div (x y : F f) : toX y <> Fin 0 -> toX (fdiv x y) = xround (xdiv (toX x) (toX y)).
Proof.
  intros Hy. destruct (is_finite y) eqn:Fy.
  - assert (Y : B2R y <> 0). { intros Z. apply Hy. rewrite toX_finite by assumption. now rewrite Z. }
    destruct (is_finite x) eqn:Fx.
    + rewrite (toX_finite x), (toX_finite y) by assumption. cbn [xdiv]. rewrite Req_bool_false by assumption.
      pose proof (Bdiv_correct (prec f) (emax f) (prec_gt_0 f) (prec_lt_emax f) mode_NE x y Y) as C.
      change (round radix2 (SpecFloat.fexp (prec f) (emax f)) (round_mode mode_NE)) with rnd in C. fold (fdiv x y) in C. fold fmax_bound in C.
      unfold xround. destruct (Rlt_bool_spec (Rabs (rnd (B2R x / B2R y))) fmax_bound) as [L|L].
      * destruct C as (E & Fi & _). rewrite Fx in Fi. rewrite toX_finite by exact Fi. now rewrite E.
      * rewrite (toX_overflow _ _ C).
        assert (N : B2R x / B2R y <> 0) by (apply big_not_0; lra).
        assert (Q : B2R x / B2R y * (B2R y * B2R y) = B2R x * B2R y) by (field; assumption).
        assert (YY : 0 < B2R y * B2R y) by (destruct (Rtotal_order (B2R y) 0) as [K|[K|K]]; [|congruence|]; nra).
        assert (X0 : B2R x * B2R y <> 0). { rewrite <- Q. apply Rmult_integral_contrapositive. split; lra. }
        assert (T : forall q r : R, 0 < r -> 0 < q * r -> 0 < q) by (intros; nra).
        destruct (Bsign x) eqn:Sx, (Bsign y) eqn:Sy; cbn [xorb];
          [pose proof (Bsign_neg x Fx Sx) as A; pose proof (Bsign_neg y Fy Sy) as B | pose proof (Bsign_neg x Fx Sx) as A; pose proof (Bsign_pos y Fy Sy) as B
          | pose proof (Bsign_pos x Fx Sx) as A; pose proof (Bsign_neg y Fy Sy) as B | pose proof (Bsign_pos x Fx Sx) as A; pose proof (Bsign_pos y Fy Sy) as B].
        -- rewrite Rlt_bool_false; [reflexivity|]. assert (0 <= (- B2R x) * (- B2R y)) by (apply Rmult_le_pos; lra). left. apply (T _ _ YY). rewrite Q. lra.
        -- rewrite Rlt_bool_true; [reflexivity|]. assert (0 <= (- B2R x) * B2R y) by (apply Rmult_le_pos; lra). assert (0 < - (B2R x / B2R y)); [|lra]. apply (T _ _ YY). rewrite Ropp_mult_distr_l_reverse, Q. lra.
        -- rewrite Rlt_bool_true; [reflexivity|]. assert (0 <= B2R x * - B2R y) by (apply Rmult_le_pos; lra). assert (0 < - (B2R x / B2R y)); [|lra]. apply (T _ _ YY). rewrite Ropp_mult_distr_l_reverse, Q. lra.
        -- rewrite Rlt_bool_false; [reflexivity|]. assert (0 <= B2R x * B2R y) by (apply Rmult_le_pos; lra). left. apply (T _ _ YY). rewrite Q. lra.
    + rewrite (toX_finite y) by assumption. destruct y as [sy|sy| |sy my ey Hy']; try discriminate; [now elim Y|].
      destruct x as [|sx| |]; try discriminate; [|reflexivity].
      assert (P : 0 < B2R (B754_finite false my ey Hy')) by (now apply F2R_gt_0).
      assert (N : B2R (B754_finite true my ey Hy') < 0) by (now apply F2R_lt_0).
      destruct sx, sy; cbn [toX xdiv]; [rewrite Rlt_bool_true by lra | rewrite Rlt_bool_false by lra | rewrite Rlt_bool_true by lra | rewrite Rlt_bool_false by lra]; reflexivity.
  - destruct y as [|sy| |]; try discriminate.
    + destruct (is_finite x) eqn:Fx.
      * rewrite (toX_finite x) by assumption. destruct x as [sx| | |sx mx ex Hx]; try discriminate; destruct sy; cbn [toX xdiv]; rewrite xround_0; reflexivity.
      * destruct x as [|[]| |]; try discriminate; destruct sy; reflexivity.
    + destruct x as [|[]| |sx mx ex Hx]; reflexivity.
Qed.
(* division by a zero: NaN, or an infinity *)
Lemma fdiv_by_zero (x y : F f) : toX y = Fin 0 -> exists z, toX (fdiv x y) = z /\
  ((toX x = Fin 0 \/ toX x = XNaN) /\ z = XNaN \/ (z = PInf \/ z = NInf) /\ toX x <> Fin 0 /\ toX x <> XNaN).
Proof.
  intros H. destruct y as [sy|[]| |sy my ey Hy]; try discriminate.
  - destruct x as [sx|[]| |sx mx ex Hx]; cbn.
    + exists XNaN. split; [reflexivity|]. auto.
    + eexists. split; [reflexivity|]. right. destruct sy; cbn; repeat split; auto; discriminate.
    + eexists. split; [reflexivity|]. right. destruct sy; cbn; repeat split; auto; discriminate.
    + exists XNaN. split; [reflexivity|]. auto.
    + eexists. split; [reflexivity|]. right. split; [destruct (xorb sx sy); auto|]. split; [|discriminate].
      intros E. assert (E' : F2R (Float radix2 (cond_Zopp sx (Z.pos mx)) ex) = 0) by congruence.
      apply eq_0_F2R in E'. destruct sx; discriminate.
  - exfalso. assert (E' : F2R (Float radix2 (cond_Zopp sy (Z.pos my)) ey) = 0) by (cbn [toX] in H; cbn [B2R] in H; congruence).
    apply eq_0_F2R in E'. destruct sy; discriminate.
Qed.
Lemma toX_sqrt (x : F f) : toX (fsqrt x) = xround (xsqrt (toX x)).
Proof.
  pose proof (Bsqrt_correct (prec f) (emax f) (prec_gt_0 f) (prec_lt_emax f) mode_NE x) as (E & Fi & Sg).
  change (round radix2 (SpecFloat.fexp (prec f) (emax f)) (round_mode mode_NE)) with rnd in E. fold (fsqrt x) in *.
  destruct x as [sx|[]| |[] mx ex Hx]; try reflexivity.
  - cbn. rewrite Rlt_bool_false by lra. rewrite sqrt_0, xround_0. reflexivity.
  - assert (N : B2R (B754_finite true mx ex Hx) < 0) by (now apply F2R_lt_0).
    cbn [toX xsqrt]. rewrite Rlt_bool_true by assumption. reflexivity.
  - assert (P : 0 < B2R (B754_finite false mx ex Hx)) by (now apply F2R_gt_0).
    rewrite (toX_finite (B754_finite false mx ex Hx)) by reflexivity. cbn [xsqrt]. rewrite Rlt_bool_false by lra.
    rewrite toX_finite by exact Fi. rewrite E. unfold xround. rewrite Rlt_bool_true; [reflexivity|].
    rewrite <- E. apply B2R_bound.
Qed.
Lemma toX_nan (x : F f) : fnan x = true <-> toX x = XNaN.
Proof. destruct x as [|[]| |]; cbn; split; congruence. Qed.
Lemma toX_fin_iff (x : F f) r : toX x = Fin r <-> is_finite x = true /\ B2R x = r.
Proof.
  split.
  - intros H. destruct (is_finite x) eqn:E.
    + rewrite toX_finite in H by assumption. split; congruence.
    + destruct x as [|[]| |]; discriminate.
  - intros [H <-]. now apply toX_finite.
Qed.
End X.
