(** Proofs: a rounded quotient of two floats passes an integer only if the quotient itself is close: for the cells of a uniform grid (C114). *)
From Coq Require Import Bool NArith ZArith Znumtheory Zpow_facts Reals List Lra Lia Psatz.
From Flocq Require Import Core.
From Verif Require Import Scalar Types Float FloatX.
Local Open Scope R_scope.
Section K.
Variable f : format.
Notation F := (generic_format radix2 (fexp_f f)).
Notation p := (prec f).
Notation u := (bpow radix2 (- prec f)).
Local Notation cexp := (cexp radix2 (fexp_f f)).
Lemma p_val : (24 <= prec f)%Z /\ (femin f <= -149)%Z.
Proof. destruct f; split; vm_compute; discriminate. Qed.
Lemma u_bounds : 0 < u <= / 16777216.
Proof. split; [apply bpow_gt_0|]. change (/ 16777216) with (bpow radix2 (-24)). apply bpow_le. pose proof p_val. lia. Qed.
Lemma pu : bpow radix2 p * u = 1.
Proof. rewrite <- bpow_plus. replace (p + - p)%Z with 0%Z by lia. reflexivity. Qed.
(* rounding to nearest even commutes with adding an even number *)
Lemma ZnE_shift t n : ZnearestE (t + IZR (2 * n)) = (ZnearestE t + 2 * n)%Z.
Proof.
  unfold Znearest. assert (E : Zfloor (t + IZR (2 * n)) = (Zfloor t + 2 * n)%Z).
  { apply Zfloor_imp. rewrite !plus_IZR. pose proof (Zfloor_lb t). pose proof (Zfloor_ub t). lra. }
  assert (C : Zceil (t + IZR (2 * n)) = (Zceil t + 2 * n)%Z).
  { apply Zceil_imp. unfold Z.sub. rewrite !plus_IZR. change (IZR (Z.opp 1)) with (-1). pose proof (Zceil_ub t). pose proof (Zceil_lb t). lra. }
  rewrite E, C, plus_IZR. replace (t + IZR (2 * n) - (IZR (Zfloor t) + IZR (2 * n))) with (t - IZR (Zfloor t)) by ring.
  replace (Z.even (Zfloor t + 2 * n)) with (Z.even (Zfloor t)) by (rewrite Z.even_add, Z.even_mul; cbn; now destruct (Z.even _)).
  destruct (Rcompare _ _); try reflexivity. now destruct (negb _).
Qed.
(* a power of two below the next: 2^(-e) is an even integer for e < 0 *)
Lemma even_pow e : (e < 0)%Z -> exists n : Z, bpow radix2 (- e) = IZR (2 * n).
Proof. intros H. exists (2 ^ (- e - 1))%Z. rewrite <- IZR_Zpower by lia. f_equal. cbn [radix_val radix2]. replace (- e)%Z with (1 + (- e - 1))%Z at 1 by lia. now rewrite Z.pow_add_r by lia. Qed.
Lemma rnd_scaled x e : cexp x = e -> rnd f x = IZR (ZnearestE (x * bpow radix2 (- e))) * bpow radix2 e.
Proof. intros <-. reflexivity. Qed.
Lemma rnd_F x : F x -> rnd f x = x.
Proof. intros H. apply round_generic; [apply valid_rnd_N | exact H]. Qed.
Lemma rnd_le x y : x <= y -> rnd f x <= rnd f y.
Proof. apply round_le; [apply fexp_valid | apply valid_rnd_N]. Qed.
Lemma mult_F n e x : x = IZR n * bpow radix2 e -> (femin f <= e)%Z -> Rabs x <= bpow radix2 (p + e) -> F x.
Proof.
  intros E H B. destruct (Req_dec (Rabs x) (bpow radix2 (p + e))) as [Q|Q].
  - apply (generic_format_abs_inv radix2 (fexp_f f)). rewrite Q. apply generic_format_bpow. unfold fexp_f, FLT_exp. pose proof p_val. lia.
  - apply generic_format_FLT. exists (Float radix2 n e); [exact E | | exact H]. cbn [Fnum]. apply lt_IZR. rewrite abs_IZR. change (IZR (radix2 ^ p)) with (IZR (Zpower radix2 p)). rewrite IZR_Zpower by (pose proof p_val; lia).
    apply (Rmult_lt_reg_r (bpow radix2 e)); [apply bpow_gt_0|]. rewrite <- bpow_plus. replace (Rabs (IZR n) * bpow radix2 e) with (Rabs x); [lra|]. rewrite E, Rabs_mult, (Rabs_pos_eq (bpow radix2 e)); [reflexivity | apply bpow_ge_0].
Qed.
Lemma int_F m : (Z.abs m <= 2 ^ 22 + 2)%Z -> F (IZR m).
Proof. intros H. apply (mult_F m 0); [cbn; ring | pose proof p_val; lia|]. rewrite <- abs_IZR. apply Rle_trans with (IZR (2 ^ 24)); [apply IZR_le; lia|]. change (IZR (2 ^ 24)) with (bpow radix2 24). apply bpow_le. pose proof p_val. lia. Qed.
(* no float lies strictly between H (1 - u) and H *)
Lemma gap H q : 0 < H -> F H -> F q -> q < H -> q <= H * (1 - u).
Proof.
  intros P FH Fq L. pose proof (pred_ge_gt radix2 (fexp_f f) q H Fq FH L) as Q. pose proof (pred_plus_ulp radix2 (fexp_f f) H P FH) as E. set (r := pred radix2 (fexp_f f) H) in *.
  assert (Fr : F r) by (apply generic_format_pred; [apply fexp_valid | exact FH]). assert (R0 : 0 <= r) by (apply pred_ge_0; first [assumption | apply fexp_valid]).
  assert (G : H <= bpow radix2 p * ulp radix2 (fexp_f f) r).
  { destruct (Req_dec r 0) as [Z|Z].
    - rewrite Z in E at 1. rewrite Rplus_0_l in E. rewrite E. rewrite <- (Rmult_1_l H) at 1. apply Rmult_le_compat_r; [lra|]. change 1 with (bpow radix2 0). apply bpow_le. pose proof p_val. lia.
    - rewrite <- E, ulp_neq_0 by assumption. rewrite <- bpow_plus. rewrite <- (ulp_neq_0 radix2 (fexp_f f) r Z). apply id_p_ulp_le_bpow; [lra | assumption|].
      apply Rle_lt_trans with (Rabs r); [apply Rle_abs|]. apply Rlt_le_trans with (1 := bpow_mag_gt radix2 r). apply bpow_le. unfold Generic_fmt.cexp, fexp_f, FLT_exp. lia. }
  assert (D : H * u <= ulp radix2 (fexp_f f) r). { pose proof u_bounds. pose proof pu. apply (Rmult_le_compat_r u) in G; [|lra]. replace (bpow radix2 p * ulp radix2 (fexp_f f) r * u) with (bpow radix2 p * u * ulp radix2 (fexp_f f) r) in G by ring. rewrite pu in G. lra. }
  lra.
Qed.
Lemma F_scale h k : (0 <= k)%Z -> F h -> F (h * bpow radix2 k).
Proof.
  intros K Fh. apply FLT_format_generic in Fh; [|apply prec_gt_0_inst || (red; pose proof p_val; lia)]. destruct Fh as [[n e] E1 E2 E3]. apply generic_format_FLT. exists (Float radix2 n (e + k)); [|exact E2|cbn [Fexp] in *; lia].
  rewrite E1. unfold F2R. cbn [Fnum Fexp]. rewrite bpow_plus. ring.
Qed.
(* a quotient of floats is never halfway between two floats *)
Lemma no_tie h q N e : F h -> F q -> 0 < h -> (2 ^ p < 2 * N + 1)%Z -> q <> h * (IZR (2 * N + 1) * bpow radix2 e).
Proof.
  intros Fh Fq Ph B E. apply FLT_format_generic in Fh; [|red; pose proof p_val; lia]. apply FLT_format_generic in Fq; [|red; pose proof p_val; lia]. destruct Fh as [[a i] A1 A2 _], Fq as [[b j] B1 B2 _]. unfold F2R in *. cbn [Fnum Fexp] in *.
  assert (a0 : (0 < a)%Z). { apply lt_IZR. apply (Rmult_lt_reg_r (bpow radix2 i)); [apply bpow_gt_0|]. rewrite <- A1. lra. }
  assert (Q : exists s t, (0 <= s)%Z /\ (0 <= t)%Z /\ (b * 2 ^ s = a * (2 * N + 1) * 2 ^ t)%Z).
  { assert (Z : IZR b * bpow radix2 j = IZR (a * (2 * N + 1)) * bpow radix2 (i + e)) by (rewrite <- B1, E, A1, mult_IZR, bpow_plus; ring).
    destruct (Z.le_ge_cases j (i + e)) as [L|L].
    - exists 0%Z, (i + e - j)%Z. split; [lia|]. split; [lia|]. apply eq_IZR. rewrite !mult_IZR in *. change (IZR (2 ^ 0)) with 1. rewrite (IZR_Zpower radix2) by lia. apply (Rmult_eq_reg_r (bpow radix2 j)); [|apply Rgt_not_eq, bpow_gt_0]. rewrite Rmult_1_r, Z. rewrite <- (Z.sub_add j (i + e)) at 1. rewrite bpow_plus. ring.
    - exists (j - (i + e))%Z, 0%Z. split; [lia|]. split; [lia|]. apply eq_IZR. rewrite !mult_IZR in *. change (IZR (2 ^ 0)) with 1. rewrite (IZR_Zpower radix2) by lia. apply (Rmult_eq_reg_r (bpow radix2 (i + e))); [|apply Rgt_not_eq, bpow_gt_0]. rewrite Rmult_1_r, <- Z. replace (bpow radix2 j) with (bpow radix2 (j - (i + e)) * bpow radix2 (i + e)) by (rewrite <- bpow_plus; f_equal; lia). ring. }
  destruct Q as (s & t & S & T & Q). assert (D : (2 * N + 1 | b)%Z).
  { apply (Gauss (2 * N + 1) (2 ^ s) b); [replace (2 ^ s * b)%Z with (b * 2 ^ s)%Z by ring; rewrite Q; exists (a * 2 ^ t)%Z; ring|]. apply Zpow_facts.rel_prime_Zpower_r; [lia|]. apply bezout_rel_prime. apply (Bezout_intro _ _ _ 1 (- N))%Z. ring. }
  assert (b0 : (b <> 0)%Z). { intros ->. rewrite Z.mul_0_l in Q. assert (0 < 2 ^ t)%Z by (apply Z.pow_pos_nonneg; lia). assert (0 < 2 ^ p)%Z by (apply Z.pow_pos_nonneg; pose proof p_val; lia). nia. }
  apply Z.divide_abs_r in D. apply Z.divide_pos_le in D; [|lia]. change (radix2 ^ p)%Z with (2 ^ p)%Z in B2. lia.
Qed.
Lemma f_emin : (femin f <= - p)%Z.
Proof. destruct f; vm_compute; discriminate. Qed.
Lemma cexp_neg x : x <> 0 -> Rabs x <= IZR (2 ^ 22) -> (cexp x <= -1)%Z.
Proof.
  intros N B. unfold Generic_fmt.cexp, fexp_f, FLT_exp. pose proof p_val. assert (mag radix2 x <= 23)%Z; [|lia]. apply mag_le_bpow; [assumption|]. apply Rle_lt_trans with (1 := B). change (bpow radix2 23) with (IZR (2 ^ 23)). apply IZR_lt. lia.
Qed.
Lemma cexp_abs x y : y <> 0 -> Rabs y <= Rabs x -> (cexp y <= cexp x)%Z.
Proof. intros N H. unfold Generic_fmt.cexp, fexp_f, FLT_exp. assert (mag radix2 y <= mag radix2 x)%Z by now apply mag_le_abs. lia. Qed.
Lemma ZnE_le x y : x <= y -> (ZnearestE x <= ZnearestE y)%Z.
Proof. apply Zrnd_le, valid_rnd_N. Qed.
Lemma ZnE_half x : Rabs (x - IZR (ZnearestE x)) <= / 2.
Proof. apply Znearest_half. Qed.
(* rounding below an integer m, in units of 2^e *)
Lemma below x e n m : cexp x = e -> bpow radix2 (- e) = IZR (2 * n) -> (rnd f x < IZR m <-> (ZnearestE (x * bpow radix2 (- e)) < m * (2 * n))%Z).
Proof.
  intros E S. rewrite (rnd_scaled x e E). replace (IZR m) with (IZR (m * (2 * n)) * bpow radix2 e).
  - split; intros H; [apply lt_IZR, (Rmult_lt_reg_r (bpow radix2 e)); [apply bpow_gt_0 | assumption] | apply Rmult_lt_compat_r; [apply bpow_gt_0 | now apply IZR_lt]].
  - rewrite mult_IZR, <- S, Rmult_assoc, <- bpow_plus. replace (- e + e)%Z with 0%Z by lia. cbn. ring.
Qed.
Lemma same_exp x y m : cexp y = cexp x -> (cexp x <= -1)%Z -> y <= x + 1 -> rnd f x < IZR m -> rnd f y < IZR (m + 1).
Proof.
  intros E N L H. destruct (even_pow (cexp x)) as [n S]; [lia|]. apply (below y _ n (m + 1) E S). apply (below x _ n m eq_refl S) in H.
  assert (Q : (ZnearestE (y * bpow radix2 (- cexp x)) <= ZnearestE (x * bpow radix2 (- cexp x) + IZR (2 * n)))%Z).
  { apply ZnE_le. rewrite <- S. replace (x * bpow radix2 (- cexp x) + bpow radix2 (- cexp x)) with ((x + 1) * bpow radix2 (- cexp x)) by ring. apply Rmult_le_compat_r; [apply bpow_ge_0 | assumption]. }
  rewrite ZnE_shift in Q. lia.
Qed.
Lemma step_neg x y m : (m <= -1)%Z -> x < IZR m -> x <= y -> y <= x + 1 -> Rabs x <= IZR (2 ^ 22) -> rnd f x < IZR m -> rnd f y < IZR (m + 1).
Proof.
  intros M X XY L B H. assert (M' : IZR m <= -1) by now apply IZR_le. pose proof (cexp_neg x ltac:(lra) B) as N. assert (M1 : IZR (m + 1) <= 0) by (rewrite plus_IZR; lra).
  assert (Y0 : y < 0) by lra. assert (C : (cexp y <= cexp x)%Z). { apply cexp_abs; [lra|]. rewrite !Rabs_left1 by lra. lra. }
  destruct (Z.eq_dec (cexp y) (cexp x)) as [E|E]; [now apply same_exp with x|].
  destruct (even_pow (cexp x)) as [n S]; [lia|]. pose proof H as Hz. apply (below x _ n m eq_refl S) in Hz. set (e := cexp x) in *. set (t := x * bpow radix2 (- e)) in *.
  assert (T : t <= IZR (m * (2 * n)) - / 2). { pose proof (ZnE_half t) as G. apply Rabs_le_inv in G. assert (IZR (ZnearestE t) <= IZR (m * (2 * n) - 1)) by (apply IZR_le; lia). rewrite minus_IZR in *. lra. }
  set (z := IZR ((m + 1) * (2 * (2 * n)) - 1) * bpow radix2 (e - 1)).
  assert (S1 : IZR (2 * n) * bpow radix2 e = 1) by (rewrite <- S, <- bpow_plus; now replace (- e + e)%Z with 0%Z by lia).
  assert (S2 : bpow radix2 (e - 1) = bpow radix2 e / 2) by (unfold Z.sub; rewrite bpow_plus; cbn; lra).
  assert (Zv : z = IZR (m + 1) - bpow radix2 e / 2). { unfold z. rewrite minus_IZR, !mult_IZR, S2. rewrite mult_IZR in S1. replace ((IZR (m + 1) * (2 * (2 * IZR n)) - 1) * (bpow radix2 e / 2)) with (IZR (m + 1) * (2 * IZR n * bpow radix2 e) - bpow radix2 e / 2) by field. rewrite S1. ring. }
  assert (Xt : x = t * bpow radix2 e). { unfold t. rewrite Rmult_assoc, <- bpow_plus. replace (- e + e)%Z with 0%Z by lia. cbn. ring. }
  pose proof (bpow_gt_0 radix2 e) as Pe.
  assert (Yz : y <= z). { rewrite Zv, plus_IZR. apply Rle_trans with (1 := L). apply Rplus_le_reg_r with (-1). replace (x + 1 + -1) with x by ring. rewrite Xt. apply (Rmult_le_compat_r (bpow radix2 e)) in T; [|lra]. rewrite Rmult_minus_distr_r, mult_IZR, Rmult_assoc, S1 in T. lra. }
  assert (Fz : F z).
  { apply (mult_F (((m + 1) * (2 * (2 * n)) - 1) * 2 ^ (e - 1 - cexp y)) (cexp y)).
    - unfold z. rewrite mult_IZR, (IZR_Zpower radix2) by lia. rewrite Rmult_assoc, <- bpow_plus. now replace (e - 1 - cexp y + cexp y)%Z with (e - 1)%Z by lia.
    - unfold Generic_fmt.cexp, fexp_f, FLT_exp. lia.
    - apply Rle_trans with (Rabs y); [rewrite !Rabs_left1 by lra; lra|]. apply Rle_trans with (bpow radix2 (mag radix2 y)); [left; apply bpow_mag_gt|]. apply bpow_le. unfold Generic_fmt.cexp, fexp_f, FLT_exp. lia. }
  apply rnd_le in Yz. rewrite (rnd_F z Fz), Zv in Yz. lra.
Qed.
Lemma step h a b m : F h -> F a -> F b -> 0 < h -> a - b <= h -> Rabs (b / h) <= IZR (2 ^ 22) -> Rabs (a / h) <= IZR (2 ^ 22) -> (Z.abs m <= 2 ^ 22 + 1)%Z ->
  rnd f (b / h) < IZR m -> rnd f (a / h) < IZR (m + 1).
Proof.
  intros Fh Fa Fb Ph D Bb Ba Bm H. set (x := b / h) in *. set (y := a / h) in *.
  assert (Xb : x * h = b) by (unfold x; field; lra). assert (Ya : y * h = a) by (unfold y; field; lra).
  assert (L : y <= x + 1). { apply (Rmult_le_reg_r h); [assumption|]. rewrite Rmult_plus_distr_r, Xb, Ya. lra. }
  assert (X : x < IZR m). { destruct (Rlt_or_le x (IZR m)) as [Q|Q]; [assumption|]. apply rnd_le in Q. rewrite rnd_F in Q by (apply int_F; lia). lra. }
  destruct (Rle_or_lt x y) as [XY|XY]; [|apply Rlt_le, rnd_le in XY; rewrite plus_IZR; lra].
  destruct (Z_lt_le_dec m 0) as [M|M]; [apply step_neg with x; first [assumption | lia]|].
  destruct (Z.eq_dec m 0) as [->|M0].
  { assert (A : a <= h * (1 - u)). { apply gap; try assumption. change (IZR 0) with 0 in X. rewrite <- Ya. apply (Rmult_lt_reg_r (/ h)); [now apply Rinv_0_lt_compat|]. rewrite Rmult_assoc, Rinv_r by lra. lra. }
    assert (Y : y <= 1 - u). { apply (Rmult_le_reg_r h); [assumption|]. rewrite Ya. lra. }
    assert (FU : F (1 - u)). { apply (mult_F (2 ^ p - 1) (- p)); [|apply f_emin|].
      - rewrite minus_IZR, (IZR_Zpower radix2) by (pose proof p_val; lia). rewrite Rmult_minus_distr_r, pu. ring.
      - replace (p + - p)%Z with 0%Z by lia. cbn [bpow]. pose proof u_bounds. rewrite Rabs_pos_eq; lra. }
    apply rnd_le in Y. rewrite (rnd_F _ FU) in Y. pose proof u_bounds. change (IZR (0 + 1)) with 1. lra. }
  destruct (Rlt_or_le (rnd f y) (IZR (m + 1))) as [G|G]; [assumption|exfalso].
  assert (M1 : 1 <= IZR m) by (apply IZR_le; lia).
  assert (Ym : IZR m < y). { destruct (Rlt_or_le (IZR m) y) as [Q|Q]; [assumption|]. apply rnd_le in Q. rewrite (rnd_F (IZR m)) in Q by (apply int_F; lia). rewrite plus_IZR in G. lra. }
  assert (C : (cexp x <= cexp y)%Z). { apply cexp_abs; [lra|]. rewrite !Rabs_pos_eq by lra. lra. }
  destruct (Z.eq_dec (cexp y) (cexp x)) as [E|E]; [pose proof (same_exp x y m E (cexp_neg x ltac:(lra) Bb) L H); lra|].
  assert (Mg : (mag radix2 x < mag radix2 y)%Z) by (unfold Generic_fmt.cexp, fexp_f, FLT_exp in C, E; lia).
  set (k := (mag radix2 y - 1)%Z). assert (K1 : bpow radix2 k <= y) by (rewrite <- (Rabs_pos_eq y) by lra; apply bpow_mag_le; lra).
  assert (K2 : y < bpow radix2 (k + 1)) by (rewrite <- (Rabs_pos_eq y) at 1 by lra; replace (k + 1)%Z with (mag radix2 y : Z) by (unfold k; lia); apply bpow_mag_gt).
  assert (K3 : x < bpow radix2 k) by (rewrite <- (Rabs_pos_eq x) at 1 by lra; apply Rlt_le_trans with (1 := bpow_mag_gt radix2 x); apply bpow_le; unfold k; lia).
  assert (K0 : (0 <= k)%Z). { destruct (Z_lt_le_dec k 0) as [Q|Q]; [|assumption]. assert (bpow radix2 (k + 1) <= bpow radix2 0) by (apply bpow_le; lia). cbn [bpow] in *. lra. }
  assert (Km : m = (2 ^ k)%Z). { assert (IZR (2 ^ k) = bpow radix2 k) by now apply (IZR_Zpower radix2). rewrite <- H0 in *. assert (m - 1 < 2 ^ k < m + 1)%Z by (split; apply lt_IZR; rewrite ?minus_IZR, ?plus_IZR in *; lra). lia. }
  assert (Vm : IZR m = bpow radix2 k) by (rewrite Km; now apply (IZR_Zpower radix2)).
  assert (K22 : (k <= 22)%Z). { assert (2 ^ k < 2 ^ 23)%Z by lia. apply Z.pow_lt_mono_r_iff in H0; lia. }
  pose proof p_val as Pv. pose proof f_emin as Ev.
  assert (Ey : cexp y = (k + 1 - p)%Z) by (unfold Generic_fmt.cexp, fexp_f, FLT_exp; unfold k in *; lia).
  set (e := (k + 1 - p)%Z) in *. set (n := (2 ^ (- e - 1))%Z).
  assert (S : bpow radix2 (- e) = IZR (2 * n)). { rewrite <- (IZR_Zpower radix2) by lia. f_equal. unfold n. cbn [radix_val radix2]. replace (- e)%Z with (1 + (- e - 1))%Z at 1 by lia. now rewrite Z.pow_add_r by lia. }
  set (t := y * bpow radix2 (- e)). assert (G' : ((m + 1) * (2 * n) <= ZnearestE t)%Z). { destruct (Z_lt_le_dec (ZnearestE t) ((m + 1) * (2 * n))) as [Q|Q]; [|assumption]. apply (below y e n (m + 1) Ey S) in Q. lra. }
  assert (S1 : IZR (2 * n) * bpow radix2 e = 1) by (rewrite <- S, <- bpow_plus; now replace (- e + e)%Z with 0%Z by lia).
  assert (S2 : bpow radix2 (e - 1) = bpow radix2 e / 2) by (unfold Z.sub; rewrite bpow_plus; cbn; lra).
  assert (Yt : y = t * bpow radix2 e). { unfold t. rewrite Rmult_assoc, <- bpow_plus. replace (- e + e)%Z with 0%Z by lia. cbn. ring. }
  assert (T : IZR ((m + 1) * (2 * n)) - / 2 < t).
  { pose proof (ZnE_half t) as Q. apply Rabs_le_inv in Q. assert (IZR ((m + 1) * (2 * n)) <= IZR (ZnearestE t)) by now apply IZR_le. assert (Q1 : IZR ((m + 1) * (2 * n)) - / 2 <= t) by lra. destruct Q1 as [Q1|Q1]; [assumption|]. exfalso.
    apply (no_tie h a ((m + 1) * (2 * n) - 1) (e - 1)); try assumption.
    - assert (V : (2 ^ p = 2 * n * (2 * 2 ^ k))%Z). { unfold n. replace (2 * 2 ^ (- e - 1))%Z with (2 ^ (- e))%Z by (replace (- e)%Z with (1 + (- e - 1))%Z at 1 by lia; now rewrite Z.pow_add_r by lia). replace (2 * 2 ^ k)%Z with (2 ^ (k + 1))%Z by (rewrite Z.pow_add_r by lia; ring). rewrite <- Z.pow_add_r by lia. f_equal. unfold e. lia. }
      rewrite V, <- Km. assert (1 <= n)%Z by (unfold n; assert (0 < 2 ^ (- e - 1))%Z by (apply Z.pow_pos_nonneg; lia); lia). nia.
    - rewrite <- Ya, Yt, <- Q1, S2. replace (2 * ((m + 1) * (2 * n) - 1) + 1)%Z with (2 * ((m + 1) * (2 * n)) - 1)%Z by ring. rewrite minus_IZR, (mult_IZR 2). field. }
  assert (Yl : IZR m + 1 - IZR m * u < y).
  { replace (IZR m * u) with (bpow radix2 (e - 1)) by (rewrite Vm, <- bpow_plus; f_equal; unfold e; lia). rewrite S2, Yt. pose proof (bpow_gt_0 radix2 e) as Pe. apply (Rmult_lt_compat_r (bpow radix2 e)) in T; [|assumption]. rewrite Rmult_minus_distr_r, mult_IZR, Rmult_assoc, S1, plus_IZR in T. lra. }
  assert (Gp : b <= h * bpow radix2 k * (1 - u)). { apply gap; [apply Rmult_lt_0_compat; [assumption | apply bpow_gt_0] | now apply F_scale | assumption|]. rewrite <- Xb, Rmult_comm. apply Rmult_lt_compat_l; assumption. }
  rewrite <- Vm in Gp. apply (Rmult_lt_compat_r h) in Yl; [|assumption]. rewrite Ya in Yl. lra.
Qed.
End K.
