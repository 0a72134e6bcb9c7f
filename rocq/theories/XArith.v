(** Both arithmetics as rounded extended-real arithmetic (proof device).
    [tx x] is the real (or infinity, or NaN) a scalar stands for; [xr A] is the rounding of arithmetic [A]
    (nothing for EXACT).  Every operation of [num_ops A] is the exact operation followed by [xr A]. *)
From Coq Require Import Bool ZArith Reals Lra Lia.
From Flocq Require Import Core.Zaux Core.Raux Core.Defs Core.Generic_fmt Core.FLT Core.Ulp Core.Round_NE IEEE754.BinarySingleNaN.
From Verif Require Import Scalar Types Float XReal OrdLaws Arith SpecOrder FloatX.
Local Open Scope R_scope.

Definition tx {A : arith} : num A -> xreal := match A with IEEE f _ => @toX f | EXACT => fun x => x end.
Definition xr (A : arith) : xreal -> xreal := match A with IEEE f _ => xround f | EXACT => fun x => x end.

Lemma flit_repr f m e : repr f (F2R (Float radix2 m e)) -> Rabs (F2R (Float radix2 m e)) < fmax_bound f -> toX (flit f m e) = Fin (F2R (Float radix2 m e)).
Proof.
  intros H B. pose proof (binary_normalize_correct (prec f) (emax f) (prec_gt_0 f) (prec_lt_emax f) mode_NE m e false) as C. cbv zeta in C.
  change (round radix2 (SpecFloat.fexp (prec f) (emax f)) (round_mode mode_NE)) with (rnd f) in C.
  rewrite rnd_repr in C by assumption. fold (fmax_bound f) in C. rewrite Rlt_bool_true in C by assumption.
  destruct C as (E & Fi & _). fold (flit f m e) in *. rewrite toX_finite by assumption. now rewrite E.
Qed.
Lemma repr_pow f e : (-100 <= e <= 100)%Z -> repr f (bpow radix2 e) /\ Rabs (bpow radix2 e) < fmax_bound f.
Proof.
  intros H. split.
  - apply generic_format_bpow. unfold fexp_f, FLT_exp, femin. destruct f; cbn; lia.
  - rewrite Rabs_pos_eq by apply bpow_ge_0. apply bpow_lt. destruct f; cbn; lia.
Qed.

Section A.
Context {A : arith}.
Implicit Types x y : num A.
Lemma tx_le x y : sle x y = xle (tx x) (tx y).
Proof. destruct A; [apply fle_toX | reflexivity]. Qed.
Lemma tx_lt x y : slt x y = xlt (tx x) (tx y).
Proof. destruct A; [apply flt_toX | reflexivity]. Qed.
Lemma tx_eq x y : seq x y = xeq (tx x) (tx y).
Proof. destruct A; [apply feq_toX | reflexivity]. Qed.
Lemma tx_nan x : snan x = xnan (tx x).
Proof. destruct A; [apply fnan_toX | reflexivity]. Qed.
Lemma tx_add x y : tx (sadd x y) = xr A (xadd (tx x) (tx y)).
Proof. destruct A; [apply toX_add | reflexivity]. Qed.
Lemma tx_sub x y : tx (ssub x y) = xr A (xsub (tx x) (tx y)).
Proof. destruct A; [apply toX_sub | reflexivity]. Qed.
Lemma tx_mul x y : tx (smul x y) = xr A (xmul (tx x) (tx y)).
Proof. destruct A; [apply toX_mul | reflexivity]. Qed.
Lemma tx_div x y : tx y <> Fin 0 -> tx (sdiv x y) = xr A (xdiv (tx x) (tx y)).
Proof. destruct A; [apply toX_div | reflexivity]. Qed.
Lemma tx_sqrt x : tx (ssqrt x) = xr A (xsqrt (tx x)).
Proof. destruct A; [apply toX_sqrt | reflexivity]. Qed.
Lemma tx_neg x : tx (sneg x) = xneg (tx x).
Proof. destruct A; [apply toX_neg | reflexivity]. Qed.
Lemma tx_abs x : tx (sabs x) = xabs (tx x).
Proof. destruct A; [apply toX_abs | reflexivity]. Qed.
Lemma tx_0 : tx (szero : num A) = Fin 0.
Proof. destruct A; reflexivity. Qed.
Lemma tx_inf : tx (sinf : num A) = PInf.
Proof. destruct A; reflexivity. Qed.
Lemma tx_ninf : tx (sninf : num A) = NInf.
Proof. destruct A; reflexivity. Qed.
Lemma tx_1 : tx (sone : num A) = Fin 1.
Proof.
  destruct A as [f P|]; [|reflexivity]. cbn. unfold fone.
  rewrite toX_finite by apply is_finite_Bone. now rewrite Bone_correct.
Qed.
Lemma tx_half : tx (shalf : num A) = Fin (/ 2).
Proof.
  destruct A as [f P|]; [|cbn; f_equal; lra]. change (toX (@fhalf f) = Fin (/ 2)).
  replace (/ 2) with (F2R (Float radix2 1 (-1))) by (unfold F2R; cbn; lra).
  change fhalf with (flit f 1 (-1)). assert (Q := repr_pow f (-1) ltac:(lia)).
  replace (bpow radix2 (-1)) with (F2R (Float radix2 1 (-1))) in Q by (unfold F2R; cbn; lra). now apply flit_repr.
Qed.
Lemma tx_2 : tx (stwo : num A) = Fin 2.
Proof.
  destruct A as [f P|]; [|reflexivity]. change (toX (@ftwo f) = Fin 2).
  replace 2 with (F2R (Float radix2 2 0)) by (unfold F2R; cbn; lra).
  change ftwo with (flit f 2 0). assert (Q := repr_pow f 1 ltac:(lia)).
  replace (bpow radix2 1) with (F2R (Float radix2 2 0)) in Q by (unfold F2R; cbn; lra). now apply flit_repr.
Qed.
Lemma xr_mono (x y : xreal) : xle x y = true -> xle (xr A x) (xr A y) = true.
Proof. destruct A; [apply xround_mono | trivial]. Qed.
Lemma xr_nan (x : xreal) : xnan (xr A x) = xnan x.
Proof. destruct A; [apply xround_nan | trivial]. Qed.
Lemma xr_neg (x : xreal) : xr A (xneg x) = xneg (xr A x).
Proof. destruct A; [apply xround_neg | trivial]. Qed.
Lemma xr_tx x : xr A (tx x) = tx x.
Proof. destruct A; [apply xround_toX | trivial]. Qed.
Lemma xr_0 : xr A (Fin 0) = Fin 0.
Proof. destruct A; [apply xround_0 | trivial]. Qed.
Lemma xr_pinf : xr A PInf = PInf. Proof. destruct A; reflexivity. Qed.
Lemma xr_ninf : xr A NInf = NInf. Proof. destruct A; reflexivity. Qed.
Lemma xr_xnan : xr A XNaN = XNaN. Proof. destruct A; reflexivity. Qed.
(* if x <= bound then so is its rounding, for a representable bound *)
Lemma xr_le_tx (x : xreal) (y : num A) : xle x (tx y) = true -> xle (xr A x) (tx y) = true.
Proof. intros H. rewrite <- xr_tx. now apply xr_mono. Qed.
Lemma xr_ge_tx (x : xreal) (y : num A) : xle (tx y) x = true -> xle (tx y) (xr A x) = true.
Proof. intros H. rewrite <- xr_tx. now apply xr_mono. Qed.
Lemma xr_nn (x : xreal) : xle (Fin 0) x = true -> xle (Fin 0) (xr A x) = true.
Proof. intros H. rewrite <- xr_0. now apply xr_mono. Qed.
Lemma xr_np (x : xreal) : xle x (Fin 0) = true -> xle (xr A x) (Fin 0) = true.
Proof. intros H. rewrite <- xr_0. now apply xr_mono. Qed.
End A.

(* xreal comparisons as propositions *)
Lemma xle_fin a b : xle (Fin a) (Fin b) = true <-> a <= b.
Proof. cbn. split; [destruct (Rle_bool_spec a b); [auto|discriminate] | apply Rle_bool_true]. Qed.
Lemma xlt_fin a b : xlt (Fin a) (Fin b) = true <-> a < b.
Proof. cbn. split; [destruct (Rlt_bool_spec a b); [auto|discriminate] | apply Rlt_bool_true]. Qed.
Lemma xlt_fin_f a b : xlt (Fin a) (Fin b) = false <-> b <= a.
Proof. cbn. split; [destruct (Rlt_bool_spec a b); [discriminate|auto] | apply Rlt_bool_false]. Qed.
Lemma xeq_eq x y : xeq x y = true <-> x = y /\ xnan x = false.
Proof.
  unfold xeq. split.
  - intros H. apply andb_prop in H. destruct H as [H1 H2].
    destruct x as [a| | |], y as [b| | |]; try discriminate; try (split; reflexivity).
    apply xle_fin in H1. apply xle_fin in H2. split; [f_equal; lra | reflexivity].
  - intros [<- H]. destruct x as [a| | |]; try discriminate; try reflexivity.
    assert (E : xle (Fin a) (Fin a) = true) by (apply xle_fin; lra). now rewrite E.
Qed.
Lemma xnan_false x : xnan x = false <-> x <> XNaN.
Proof. destruct x; cbn; split; congruence. Qed.

