(** Proofs: a change of units by a power of two is exact in floating point (C76). *)
From Coq Require Import Bool NArith ZArith Reals List Lra Lia.
From Flocq Require Import Core.Zaux Core.Raux Core.Defs Core.Generic_fmt Core.Float_prop Core.FLT IEEE754.BinarySingleNaN.
From Verif Require Import Scalar Types Vector2 Vector3 Point2 Point3 Ray BoundingBox2 BoundingBox3 Transform2 Transform3 Float
  XReal OrdLaws Arith SpecOrder SpecStruct SpecFloat SpecReal SpecBox SpecErr SpecSame SpecScale FloatX XArith FloatLaws FloatTrans ExactBase ExactRot ErrBase FloatErr FloatInt FloatInv FloatGeom SlabBase FloatRay FloatSign FloatSym ExVals.
Import ListNotations.
Local Open Scope R_scope.
Section I.
Context {f : format} {P : platform f}.
Notation A := (IEEE f P).
Notation em := (femin f).
Notation pr := (prec f).
Definition mult2 (e : Z) (r : R) : Prop := exists n, r = IZR n * bpow radix2 e.
Lemma mult2_0 e : mult2 e 0.
Proof. exists 0%Z. ring. Qed.
Lemma mult2_finer e e' r : (e' <= e)%Z -> mult2 e r -> mult2 e' r.
Proof.
  intros L [n ->]. exists (n * 2 ^ (e - e'))%Z. rewrite mult_IZR, (IZR_Zpower radix2) by lia. rewrite Rmult_assoc, <- bpow_plus. do 2 f_equal. ring.
Qed.
Lemma mult2_scale e k r : mult2 e r -> mult2 (e + k) (r * bpow radix2 k).
Proof. intros [n ->]. exists n. rewrite bpow_plus. ring. Qed.
Lemma mult2_format e r : mult2 e r -> (cexp radix2 (fexp_f f) r <= e)%Z -> repr f r.
Proof.
  intros [n ->] L. unfold repr. replace (IZR n * bpow radix2 e) with (F2R (Float radix2 n e)) by reflexivity. apply generic_format_F2R. intros _. exact L.
Qed.
Lemma cexp_f r : cexp radix2 (fexp_f f) r = Z.max (mag radix2 r - pr) em.
Proof. reflexivity. Qed.
Lemma rnd_cexp r : exists n, rnd f r = IZR n * bpow radix2 (cexp radix2 (fexp_f f) r).
Proof. unfold rnd, round, F2R. eexists. cbn [Fnum Fexp]. reflexivity. Qed.
Lemma mult2_rnd e r : mult2 e r -> mult2 e (rnd f r).
Proof.
  intros M. destruct (Z_le_gt_dec (cexp radix2 (fexp_f f) r) e) as [L|L].
  - rewrite rnd_repr; [assumption | now apply mult2_format with e].
  - destruct (rnd_cexp r) as [n ->]. apply mult2_finer with (cexp radix2 (fexp_f f) r); [lia | now exists n].
Qed.
(* rounding commutes with the scaling when the exponent is not clamped *)
Lemma rnd_scale_cexp r k : cexp radix2 (fexp_f f) (r * bpow radix2 k) = (cexp radix2 (fexp_f f) r + k)%Z -> rnd f (r * bpow radix2 k) = rnd f r * bpow radix2 k.
Proof.
  intros E. unfold rnd, round, F2R, scaled_mantissa. rewrite E. cbn [Fnum Fexp]. rewrite bpow_plus. rewrite <- Rmult_assoc. f_equal. f_equal. f_equal. f_equal.
  rewrite Rmult_assoc, <- bpow_plus. f_equal. f_equal. lia.
Qed.
Lemma rnd_scale e r k : mult2 e r -> (em <= e)%Z -> (em <= e + k)%Z -> rnd f (r * bpow radix2 k) = rnd f r * bpow radix2 k.
Proof.
  intros M L1 L2. destruct (Req_dec r 0) as [->|N]; [rewrite Rmult_0_l, rnd_0; ring|].
  assert (Q : (mag radix2 (r * bpow radix2 k) = mag radix2 r + k :> Z)%Z) by now apply mag_mult_bpow.
  destruct (Z_le_gt_dec (mag radix2 r - pr) e) as [L|L].
  - rewrite !rnd_repr; [reflexivity | apply mult2_format with e; [assumption | rewrite cexp_f; lia] | apply mult2_format with (e + k)%Z; [now apply mult2_scale | rewrite cexp_f, Q; lia]].
  - apply rnd_scale_cexp. rewrite !cexp_f, Q. lia.
Qed.
Lemma rnd_scale_normal r k : (r <> 0 -> bpow radix2 (em + pr - 1) <= Rabs r /\ bpow radix2 (em + pr - 1 - k) <= Rabs r) -> rnd f (r * bpow radix2 k) = rnd f r * bpow radix2 k.
Proof.
  intros H. destruct (Req_dec r 0) as [->|N]; [rewrite Rmult_0_l, rnd_0; ring|]. destruct (H N) as [H1 H2].
  assert (Q : (mag radix2 (r * bpow radix2 k) = mag radix2 r + k :> Z)%Z) by now apply mag_mult_bpow.
  apply rnd_scale_cexp. rewrite !cexp_f, Q. pose proof (mag_ge_bpow radix2 r (em + pr) H1). pose proof (mag_ge_bpow radix2 r (em + pr - k)) as H3.
  replace (em + pr - k - 1)%Z with (em + pr - 1 - k)%Z in H3 by ring. specialize (H3 H2). lia.
Qed.
Lemma rnd_bound r B : (em <= B)%Z -> Rabs r <= bpow radix2 B -> Rabs (rnd f r) <= bpow radix2 B.
Proof.
  intros L H. assert (R : repr f (bpow radix2 B)) by (apply generic_format_bpow; unfold fexp_f, FLT_exp; destruct f; cbn [prec] in *; lia).
  apply Rabs_le. apply Rabs_le_inv in H. rewrite <- (rnd_repr f _ R). split; [rewrite <- rnd_opp|]; apply rnd_mono; lra.
Qed.
(* x and y: the same quantity in units that differ by 2^k; x is a multiple of 2^e, at most 2^B *)
Definition SC (x y : num A) (k e B : Z) : Prop := exists r, tx x = Fin r /\ tx y = Fin (r * bpow radix2 k) /\ mult2 e r /\ Rabs r <= bpow radix2 B.
Definition okr (k e B : Z) : Prop := (em <= e /\ em <= e + k /\ em <= B /\ B < emax f /\ B + k < emax f)%Z.
Lemma xr_fin_bound r B : (em <= B)%Z -> (B < emax f)%Z -> Rabs r <= bpow radix2 B -> xr A (Fin r) = Fin (rnd f r).
Proof.
  intros L1 L2 H. cbn [xr]. unfold xround. rewrite Rlt_bool_true; [reflexivity|]. apply Rle_lt_trans with (bpow radix2 B); [now apply rnd_bound | now apply bpow_lt].
Qed.
Lemma scaled_bound r k B : Rabs r <= bpow radix2 B -> Rabs (r * bpow radix2 k) <= bpow radix2 (B + k).
Proof. intros H. rewrite Rabs_mult, (Rabs_pos_eq (bpow radix2 k)) by apply bpow_ge_0. rewrite bpow_plus. apply Rmult_le_compat_r; [apply bpow_ge_0 | assumption]. Qed.
Lemma SC_intro (x y : num A) a b r k e B : tx x = xr A a -> tx y = xr A b -> a = Fin r -> b = Fin (r * bpow radix2 k) -> mult2 e r -> Rabs r <= bpow radix2 B -> okr k e B -> (em <= B + k)%Z -> SC x y k e B.
Proof.
  intros E1 E2 -> -> M H (K1 & K2 & K3 & K4 & K5) K6. exists (rnd f r). rewrite E1, E2. split; [|split; [|split]].
  - now apply xr_fin_bound with B.
  - rewrite (xr_fin_bound _ (B + k)) by (try apply scaled_bound; assumption || lia). f_equal. now apply rnd_scale with e.
  - now apply mult2_rnd.
  - now apply rnd_bound.
Qed.
Lemma SC_weak x y k e B e' B' : SC x y k e B -> (e' <= e)%Z -> (B <= B')%Z -> SC x y k e' B'.
Proof. intros (r & E1 & E2 & M & H) L1 L2. exists r. repeat split; try assumption; [now apply mult2_finer with e | apply Rle_trans with (1 := H); now apply bpow_le]. Qed.
Lemma sum_bound r s B C : Rabs r <= bpow radix2 B -> Rabs s <= bpow radix2 C -> Rabs (r + s) <= bpow radix2 (Z.max B C + 1).
Proof.
  intros H K. apply Rle_trans with (1 := Rabs_triang _ _). replace (Z.max B C + 1)%Z with (1 + Z.max B C)%Z by ring. rewrite bpow_plus. change (bpow radix2 1) with 2.
  pose proof (bpow_le radix2 B (Z.max B C) ltac:(lia)). pose proof (bpow_le radix2 C (Z.max B C) ltac:(lia)). lra.
Qed.
Lemma SC_add x y x' y' k e e' B B' : SC x y k e B -> SC x' y' k e' B' -> okr k (Z.min e e') (Z.max B B' + 1) -> (em <= Z.max B B' + 1 + k)%Z -> SC (sadd x x') (sadd y y') k (Z.min e e') (Z.max B B' + 1).
Proof.
  intros (r & E1 & E2 & M & H) (s & E3 & E4 & M' & H') K1 K2. apply (mult2_finer _ (Z.min e e')) in M; [|lia]. apply (mult2_finer _ (Z.min e e')) in M'; [|lia].
  eapply (SC_intro _ _ _ _ (r + s)); [apply tx_add | apply tx_add | now rewrite E1, E3 | rewrite E2, E4; cbn; f_equal; ring | | now apply sum_bound | assumption | assumption].
  destruct M as [n ->], M' as [m ->]. exists (n + m)%Z. rewrite plus_IZR. ring.
Qed.
Lemma SC_neg x y k e B : SC x y k e B -> SC (sneg x) (sneg y) k e B.
Proof.
  intros (r & E1 & E2 & [n M] & H). exists (- r). rewrite !tx_neg, E1, E2. cbn [xneg]. rewrite Rabs_Ropp. repeat split; try assumption; [f_equal; ring | exists (- n)%Z; rewrite opp_IZR, M; ring].
Qed.
Lemma SC_sub x y x' y' k e e' B B' : SC x y k e B -> SC x' y' k e' B' -> okr k (Z.min e e') (Z.max B B' + 1) -> (em <= Z.max B B' + 1 + k)%Z -> SC (ssub x x') (ssub y y') k (Z.min e e') (Z.max B B' + 1).
Proof.
  intros H1 H2 K1 K2. apply SC_neg in H2. destruct (SC_add _ _ _ _ _ _ _ _ _ H1 H2 K1 K2) as (r & E1 & E2 & E3). exists r. rewrite !sub_add. auto.
Qed.
Lemma SC_mul x y x' y' k l e e' B B' : SC x y k e B -> SC x' y' l e' B' -> okr (k + l) (e + e') (B + B') -> (em <= B + B' + (k + l))%Z -> SC (smul x x') (smul y y') (k + l) (e + e') (B + B').
Proof.
  intros (r & E1 & E2 & M & H) (s & E3 & E4 & M' & H') K1 K2.
  eapply (SC_intro _ _ _ _ (r * s)); [apply tx_mul | apply tx_mul | now rewrite E1, E3 | rewrite E2, E4; cbn; f_equal; rewrite bpow_plus; ring | | | assumption | assumption].
  - destruct M as [n ->], M' as [m ->]. exists (n * m)%Z. rewrite mult_IZR, bpow_plus. ring.
  - rewrite Rabs_mult, bpow_plus. apply Rmult_le_compat; try apply Rabs_pos; assumption.
Qed.
Lemma SC_const (c : num A) n e B : tx c = Fin (IZR n * bpow radix2 e) -> (Z.abs n <= 2 ^ (B - e))%Z -> (e <= B)%Z -> SC c c 0 e B.
Proof.
  intros E L Q. exists (IZR n * bpow radix2 e). split; [assumption|]. split; [rewrite E; f_equal; change (bpow radix2 0) with 1; ring|]. split; [now exists n|].
  rewrite Rabs_mult, <- abs_IZR, (Rabs_pos_eq (bpow radix2 e)) by apply bpow_ge_0. replace (bpow radix2 B) with (bpow radix2 (B - e) * bpow radix2 e) by (rewrite <- bpow_plus; f_equal; ring).
  apply Rmult_le_compat_r; [apply bpow_ge_0|]. rewrite <- (IZR_Zpower radix2) by lia. now apply IZR_le.
Qed.
Lemma SC_half : SC shalf shalf 0 (-1) (-1).
Proof. apply SC_const with 1%Z; [rewrite tx_half; cbn; f_equal; lra | reflexivity | lia]. Qed.
Lemma SC_two : SC stwo stwo 0 1 1.
Proof. apply SC_const with 1%Z; [rewrite tx_2; cbn; f_equal; lra | reflexivity | lia]. Qed.
(* leaves *)
Lemma float_mult2 (x : num A) r a : tx x = Fin r -> r = 0 \/ bpow radix2 (- a) <= Rabs r -> mult2 (1 - a - pr) r.
Proof.
  intros E [->|H]; [apply mult2_0|]. destruct (repr_tx _ _ _ _ E) as [G _]. red in G. rewrite G. eapply mult2_finer; [|eexists; unfold F2R; cbn [Fnum Fexp]; reflexivity].
  change (1 - a - pr <= cexp radix2 (fexp_f f) r)%Z. rewrite cexp_f. pose proof (mag_ge_bpow radix2 r (1 - a)) as Q. replace (1 - a - 1)%Z with (- a)%Z in Q by ring. specialize (Q H). lia.
Qed.
Lemma SC_leaf (x y : num A) a k : rescaled a k x y -> SC x y k (1 - a - pr + Z.max 0 (- k)) (a - Z.max 0 k).
Proof.
  intros ((F1 & R1) & (F2 & R2) & (_ & _ & E)). apply Finite_real in F1, F2. set (r := real_of x) in *. set (s := real_of y) in *. clearbody r s. subst s.
  exists r. split; [assumption|]. split; [rewrite F2; f_equal; ring|]. split.
  - destruct (Z_le_gt_dec 0 k) as [L|L].
    + apply mult2_finer with (1 - a - pr)%Z; [lia|]. apply (float_mult2 x r a F1). tauto.
    + assert (M : mult2 (1 - a - pr) (bpow radix2 k * r)) by (apply (float_mult2 y _ a F2); tauto).
      apply (mult2_scale _ (- k)) in M. replace (1 - a - pr + Z.max 0 (- k))%Z with (1 - a - pr + - k)%Z by lia.
      replace (bpow radix2 k * r * bpow radix2 (- k)) with r in M; [assumption|]. rewrite (Rmult_comm _ r), Rmult_assoc, <- bpow_plus. replace (k + - k)%Z with 0%Z by ring. cbn. ring.
  - pose proof (bpow_gt_0 radix2 k) as Kp. assert (B1 : Rabs r <= bpow radix2 a) by (destruct R1 as [->|R1]; [rewrite Rabs_R0; apply bpow_ge_0 | tauto]).
    destruct (Z_le_gt_dec k 0) as [L|L]; [replace (a - Z.max 0 k)%Z with a by lia; assumption|].
    replace (a - Z.max 0 k)%Z with (a + - k)%Z by lia. rewrite bpow_plus, bpow_opp. apply Rmult_le_reg_r with (bpow radix2 k); [assumption|]. rewrite Rmult_assoc, Rinv_l, Rmult_1_r by lra.
    destruct R2 as [R2|R2].
    + apply Rmult_integral in R2. destruct R2 as [|R2]; [lra|]. subst r. rewrite Rabs_R0. pose proof (bpow_ge_0 radix2 a). lra.
    + rewrite Rabs_mult, (Rabs_pos_eq (bpow radix2 k)) in R2 by lra. lra.
Qed.
Lemma SC_times x y k e B : SC x y k e B -> times2 k x y.
Proof. intros (r & E1 & E2 & _). apply Finite_intro in E1, E2. destruct E1 as [F1 R1], E2 as [F2 R2]. split; [assumption|]. split; [assumption|]. rewrite R1, R2. ring. Qed.
Lemma SC_lt x y x' y' k e e' B B' : SC x y k e B -> SC x' y' k e' B' -> slt y y' = slt x x'.
Proof.
  intros (r & E1 & E2 & _) (s & E3 & E4 & _). rewrite !tx_lt, E1, E2, E3, E4. pose proof (bpow_gt_0 radix2 k).
  apply eq_true_iff_eq. rewrite !xlt_fin. split; intros; nra.
Qed.
Lemma SC_le x y x' y' k e e' B B' : SC x y k e B -> SC x' y' k e' B' -> sle y y' = sle x x'.
Proof.
  intros (r & E1 & E2 & _) (s & E3 & E4 & _). rewrite !tx_le, E1, E2, E3, E4. pose proof (bpow_gt_0 radix2 k).
  apply eq_true_iff_eq. rewrite !xle_fin. split; intros; nra.
Qed.
(* square root of a sum of squares *)
Lemma em_range : em = (3 - emax f - pr)%Z /\ (24 <= pr <= 53)%Z /\ (128 <= emax f <= 1024)%Z /\ (5 * pr <= emax f)%Z.
Proof. destruct f; cbn; lia. Qed.
Lemma sqrt_bpow n : sqrt (bpow radix2 (n + n)) = bpow radix2 n.
Proof. rewrite bpow_plus. apply sqrt_square, bpow_ge_0. Qed.
Lemma sqrt_scale r k : 0 <= r -> sqrt (r * bpow radix2 (k + k)) = sqrt r * bpow radix2 k.
Proof. intros H. now rewrite sqrt_mult, sqrt_bpow by (assumption || apply bpow_ge_0). Qed.
Lemma SC_sqrt x y k n B r : tx x = Fin r -> 0 <= r -> SC x y (k + k) (n + n) (B + B) -> (em + pr - 1 <= n)%Z -> (em + pr - 1 <= n + k)%Z -> (n <= B)%Z -> (B < emax f)%Z -> (B + k < emax f)%Z ->
  exists s, tx (ssqrt x) = Fin s /\ tx (ssqrt y) = Fin (s * bpow radix2 k) /\ (r <> 0 -> bpow radix2 n <= s) /\ (r = 0 -> s = 0) /\ 0 <= s <= bpow radix2 B.
Proof.
  pose proof em_range as ER. intros E Hr (r' & E1 & E2 & [m M] & H) K1 K2 K3 K4 K5. assert (Er : r' = r) by congruence. rewrite Er in *. clear r' Er E1.
  assert (NZ : r <> 0 -> bpow radix2 (n + n) <= r).
  { intros N. assert (m <> 0)%Z by (intros ->; apply N; rewrite M; ring). assert (1 <= m)%Z by (destruct (Z_lt_le_dec m 0) as [L|L]; [|lia]; exfalso; apply (IZR_lt _ 0) in L; pose proof (bpow_gt_0 radix2 (n + n)); nra).
    rewrite M. apply (IZR_le 1) in H1. pose proof (bpow_gt_0 radix2 (n + n)). nra. }
  assert (SB : 0 <= sqrt r <= bpow radix2 B) by (split; [apply sqrt_pos|]; rewrite <- sqrt_bpow; apply sqrt_le_1_alt; rewrite Rabs_pos_eq in H by assumption; assumption).
  assert (SN : r <> 0 -> bpow radix2 n <= sqrt r) by (intros N; rewrite <- sqrt_bpow; apply sqrt_le_1_alt; auto).
  assert (A1 : Rabs (sqrt r) <= bpow radix2 B) by (rewrite Rabs_pos_eq; lra).
  exists (rnd f (sqrt r)). rewrite !tx_sqrt, E, E2, !xsqrt_fin by (try apply Rmult_le_pos; try apply bpow_ge_0; assumption). rewrite sqrt_scale by assumption.
  split; [apply (xr_fin_bound _ B); assumption || lia|]. split; [|split; [|split; [|split]]].
  - rewrite (xr_fin_bound _ (B + k)) by (try apply scaled_bound; assumption || lia). f_equal. apply rnd_scale_normal. intros N. assert (N' : r <> 0) by (intros ->; apply N, sqrt_0).
    rewrite Rabs_pos_eq by lra. split; (apply Rle_trans with (2 := SN N'); apply bpow_le; lia).
  - intros N. replace (bpow radix2 n) with (rnd f (bpow radix2 n)); [now apply rnd_mono, SN|]. apply rnd_repr. apply generic_format_bpow. unfold fexp_f, FLT_exp. lia.
  - intros ->. rewrite sqrt_0. apply rnd_0.
  - apply rnd_nn. lra.
  - pose proof (rnd_bound (sqrt r) B ltac:(lia) A1) as Q. rewrite Rabs_pos_eq in Q; [assumption|]. apply rnd_nn; lra.
Qed.
(* quotients *)
Lemma SC_div x y u w k l e B s lo hi : SC x y k e B -> tx u = Fin s -> tx w = Fin (s * bpow radix2 l) -> bpow radix2 lo <= Rabs s <= bpow radix2 hi ->
  (em + pr - 1 <= e - hi)%Z -> (em + pr - 1 <= e - hi + (k - l))%Z -> (em <= B - lo < emax f)%Z -> (em <= B - lo + (k - l) < emax f)%Z ->
  exists q, tx (sdiv x u) = Fin q /\ tx (sdiv y w) = Fin (q * bpow radix2 (k - l)).
Proof.
  intros (r & E1 & E2 & [m M] & H) Eu Ew [S1 S2] K1 K2 K3 K4. pose proof (bpow_gt_0 radix2 lo) as L0. pose proof (bpow_gt_0 radix2 l) as Ll.
  assert (Ns : s <> 0) by (intros ->; rewrite Rabs_R0 in S1; lra). assert (Nl : s * bpow radix2 l <> 0) by (apply Rmult_integral_contrapositive; split; lra).
  exists (rnd f (r / s)). rewrite !tx_div by (rewrite ?Eu, ?Ew; intros C; injection C; lra). rewrite E1, E2, Eu, Ew.
  rewrite !xdiv_fin by assumption. replace (r * bpow radix2 k / (s * bpow radix2 l)) with (r / s * bpow radix2 (k - l)) by (unfold Zminus; rewrite bpow_plus, bpow_opp; field; split; [lra | assumption]).
  assert (QB : Rabs (r / s) <= bpow radix2 (B - lo)).
  { unfold Rdiv. rewrite Rabs_mult, Rabs_inv. unfold Zminus. rewrite bpow_plus, bpow_opp. apply Rmult_le_compat; try apply Rabs_pos; [rewrite <- Rabs_inv; apply Rabs_pos | assumption | apply Rinv_le_contravar; assumption]. }
  split; [apply (xr_fin_bound _ (B - lo)); tauto|]. rewrite (xr_fin_bound _ (B - lo + (k - l))) by (try apply scaled_bound; tauto). f_equal. apply rnd_scale_normal. intros N.
  assert (Q : bpow radix2 (e - hi) <= Rabs (r / s)).
  { unfold Rdiv. rewrite Rabs_mult, Rabs_inv. unfold Zminus. rewrite bpow_plus, bpow_opp. apply Rmult_le_compat; try apply bpow_ge_0; [rewrite <- bpow_opp; apply bpow_ge_0 | | apply Rinv_le_contravar; [lra | assumption]].
    assert (m <> 0)%Z by (intros ->; apply N; rewrite M; unfold Rdiv; ring). rewrite M, Rabs_mult, <- abs_IZR, (Rabs_pos_eq (bpow radix2 e)) by apply bpow_ge_0. assert (1 <= Z.abs m)%Z by lia. apply (IZR_le 1) in H1. pose proof (bpow_gt_0 radix2 e). nra. }
  split; (apply Rle_trans with (2 := Q); apply bpow_le; lia).
Qed.
End I.
Lemma SC_abs f (P : platform f) (x y : num (IEEE f P)) k e B : SC x y k e B -> SC (sabs x) (sabs y) k e B.
Proof.
  intros (r & E1 & E2 & [n M] & H). exists (Rabs r). rewrite !tx_abs, E1, E2. cbn [xabs]. rewrite Rabs_Rabsolu, Rabs_mult, (Rabs_pos_eq (bpow radix2 k)) by apply bpow_ge_0. repeat split; try assumption.
  exists (Z.abs n). rewrite M, Rabs_mult, <- abs_IZR, (Rabs_pos_eq (bpow radix2 e)) by apply bpow_ge_0. reflexivity.
Qed.
Definition xscale (j : Z) (x : xreal) : xreal := match x with Fin r => Fin (r * bpow radix2 j) | _ => x end.
Lemma xle_scale j x y : xle (xscale j x) (xscale j y) = xle x y.
Proof. pose proof (bpow_gt_0 radix2 j). destruct x, y; try reflexivity. apply eq_true_iff_eq. cbn [xscale]. rewrite !xle_fin. split; intros; nra. Qed.
Lemma xnan_scale j x : xnan (xscale j x) = xnan x.
Proof. now destruct x. Qed.
Lemma xmin_scale j x y : xscale j (xmin x y) = xmin (xscale j x) (xscale j y).
Proof. unfold xmin. rewrite !xnan_scale, xle_scale. destruct (xnan x), (xnan y), (xle x y); reflexivity. Qed.
Lemma xmax_scale j x y : xscale j (xmax x y) = xmax (xscale j x) (xscale j y).
Proof. unfold xmax. rewrite !xnan_scale, xle_scale. destruct (xnan x), (xnan y), (xle x y); reflexivity. Qed.
Lemma xscale_0 j : xscale j (Fin 0) = Fin 0.
Proof. cbn. f_equal. ring. Qed.
Lemma xscale_inf j : xscale j PInf = PInf.
Proof. reflexivity. Qed.
Lemma xle_nonan x y : xle x y = true -> x <> XNaN /\ y <> XNaN.
Proof. destruct x, y; try discriminate; intros; split; discriminate. Qed.
Ltac conjs := lazymatch goal with |- _ /\ _ => split; conjs | |- _ => idtac end.
Lemma fmt_facts f : (femin f = 3 - emax f - prec f /\ (prec f = 24 /\ emax f = 128 \/ prec f = 53 /\ emax f = 1024))%Z.
Proof. destruct f; cbn; lia. Qed.
Ltac arith0 f := unfold okr; pose proof (fmt_facts f); Z.to_euclidean_division_equations; lia.
Ltac sc_t := lazymatch goal with
  | |- SC (sadd _ _) _ _ _ _ => eapply SC_add; [sc_t | sc_t | |]
  | |- SC (fadd _ _) _ _ _ _ => eapply SC_add; [sc_t | sc_t | |]
  | |- SC (ssub _ _) _ _ _ _ => eapply SC_sub; [sc_t | sc_t | |]
  | |- SC (fsub _ _) _ _ _ _ => eapply SC_sub; [sc_t | sc_t | |]
  | |- SC (smul _ _) _ _ _ _ => eapply SC_mul; [sc_t | sc_t | |]
  | |- SC (fmul _ _) _ _ _ _ => eapply SC_mul; [sc_t | sc_t | |]
  | |- SC shalf _ _ _ _ => exact SC_half
  | |- SC stwo _ _ _ _ => exact SC_two
  | |- _ => first [eassumption | apply SC_leaf; eauto]
  end.

Lemma tx_sign f (P : platform f) (x : num (IEEE f P)) r : tx x = Fin r -> (r < 0 -> Bsign x = true) /\ (0 < r -> Bsign x = false).
Proof.
  intros E. apply toX_fin_iff in E. destruct E as [F E]. split; intros H.
  - destruct (Bsign x) eqn:S; [reflexivity|]. pose proof (Bsign_pos f x F S). lra.
  - destruct (Bsign x) eqn:S; [|reflexivity]. pose proof (Bsign_neg f x F S). lra.
Qed.
Lemma SC_in_range f (P : platform f) (x : num (IEEE f P)) a : in_range a x -> SC x x 0 (1 - a - prec f) a.
Proof.
  intros H. assert (Q : rescaled a 0 x x) by (split; [assumption|]; split; [assumption|]; destruct H; split; [assumption|]; split; [assumption|]; cbn; ring).
  apply SC_leaf in Q. cbn [Z.opp Z.max Z.compare] in Q. now rewrite Z.add_0_r, Z.sub_0_r in Q.
Qed.
Lemma rescale_exact f (P : platform f) (x : num (IEEE f P)) k : (Z.abs k <= emax f / 4)%Z -> in_range (emax f / 4) x -> exists r, tx x = Fin r /\ Finite x /\ real_of x = r /\ xr (IEEE f P) (Fin (r * bpow radix2 k)) = Fin (r * bpow radix2 k).
Proof.
  intros K H. apply SC_in_range in H. destruct H as (r & E & _ & M & B). exists r. apply Finite_intro in E as E'. split; [assumption|]. split; [tauto|]. split; [tauto|].
  destruct (repr_tx _ _ _ _ E) as [R _]. rewrite (xr_fin_bound _ (emax f / 4 + k)) by (try (now apply scaled_bound); arith0 f). f_equal. rewrite <- (rnd_repr f r R) at 2. apply (rnd_scale _ _ _ M); arith0 f.
Qed.
Lemma tx_times2 f (P : platform f) (x y : num (IEEE f P)) r k : tx x = Fin r -> tx y = Fin (r * bpow radix2 k) -> times2 k x y.
Proof. intros E1 E2. apply Finite_intro in E1, E2. destruct E1 as [F1 R1], E2 as [F2 R2]. split; [assumption|]. split; [assumption|]. rewrite R1, R2. ring. Qed.
Lemma mul_pow f (P : platform f) (x c : num (IEEE f P)) k : (Z.abs k <= emax f / 4)%Z -> tx c = Fin (bpow radix2 k) -> in_range (emax f / 4) x -> times2 k x (smul x c).
Proof. intros K C H. destruct (rescale_exact _ _ _ k K H) as (r & E & _ & _ & X). apply tx_times2 with r; [assumption|]. rewrite tx_mul, E, C. exact X. Qed.
Lemma div_pow f (P : platform f) (x c : num (IEEE f P)) k : (Z.abs k <= emax f / 4)%Z -> tx c = Fin (bpow radix2 k) -> in_range (emax f / 4) x -> times2 (- k) x (sdiv x c).
Proof.
  intros K C H. destruct (rescale_exact f P x (- k) ltac:(now rewrite Z.abs_opp) H) as (r & E & _ & _ & X). apply tx_times2 with r; [assumption|]. pose proof (bpow_gt_0 radix2 k).
  rewrite tx_div by (rewrite C; intros Q; injection Q; lra). rewrite E, C, xdiv_fin by lra. unfold Rdiv. rewrite <- bpow_opp. exact X.
Qed.
Lemma sign_pow k f (P : platform f) (x c : num (IEEE f P)) : (Z.abs k <= emax f / 4)%Z -> tx c = Fin (bpow radix2 k) -> in_range (emax f / 4) x -> Bsign x = Bsign (smul x c).
Proof.
  intros K C H. destruct (rescale_exact _ _ _ k K H) as (r & E & _ & _ & X). assert (M : tx (smul x c) = Fin (r * bpow radix2 k)) by (rewrite tx_mul, E, C; exact X).
  pose proof (bpow_gt_0 radix2 k) as Kp. destruct (tx_sign _ _ _ _ C) as [_ S]. specialize (S Kp).
  destruct (Rtotal_order r 0) as [L|[Z|L]].
  - rewrite (proj1 (tx_sign _ _ _ _ E)), (proj1 (tx_sign _ _ _ _ M)); nra || reflexivity.
  - subst r. apply toX_fin_iff in E. apply toX_fin_iff in C. destruct E as [Fx Ex], C as [Fc Ec]. change (smul x c) with (fmul x c). destruct x as [s|[]| |s m e B]; try discriminate.
    + destruct c as [t|[]| |t m' e' B']; try discriminate; cbn in *; subst t; now rewrite xorb_false_r.
    + exfalso. cbn [B2R] in Ex. apply eq_0_F2R in Ex. destruct s; discriminate.
  - rewrite (proj2 (tx_sign _ _ _ _ E)), (proj2 (tx_sign _ _ _ _ M)); nra || reflexivity.
Qed.
Lemma tx_times2x f (P : platform f) (x y : num (IEEE f P)) j : tx y = xscale j (tx x) -> tx x <> XNaN -> times2x j x y.
Proof.
  intros E N. destruct (tx x) as [r| | |] eqn:X; cbn [xscale] in E; [left; now apply tx_times2 with r | | | congruence];
    (right; split; [apply Eqs_tx; rewrite E, X; split; congruence | intros F; apply Finite_tx in F; destruct F as [s F]; congruence]).
Qed.
Lemma zq_scale b j x : zq b x = zq b (xscale j x).
Proof.
  pose proof (bpow_gt_0 radix2 j). destruct x as [a| | |]; try reflexivity. cbn [xscale]. assert (Q : xsigned_inf a = xsigned_inf (a * bpow radix2 j)).
  { unfold xsigned_inf. repeat match goal with |- context [Rlt_bool ?u ?v] => destruct (Rlt_bool_spec u v) end; try reflexivity; exfalso; nra. }
  unfold zq. now rewrite Q.
Qed.
Lemma ray_quot f (P : platform f) k l (x x' o o' d d' : num (IEEE f P)) : (Z.abs k <= emax f / 6)%Z -> (Z.abs l <= emax f / 6)%Z -> rescaled (emax f / 6) k x x' -> rescaled (emax f / 6) k o o' -> rescaled (emax f / 6) l d d' -> Bsign d = Bsign d' ->
  tx (sdiv (ssub x' o') d') = xscale (k - l) (tx (sdiv (ssub x o) d)).
Proof.
  intros Hk Hl Hx Ho Hd S. pose proof Hd as ((Fd & Rd) & (Fd' & _) & _ & _ & E). apply SC_leaf in Hx, Ho.
  assert (N : SC (ssub x o) (ssub x' o') k (1 - emax f / 6 - prec f + Z.max 0 (- k)) (emax f / 6 - Z.max 0 k + 1)) by (eapply SC_weak; [sc_t; arith0 f | |]; lia).
  destruct (Req_dec (real_of d) 0) as [Z|Z].
  - assert (d' = d). { apply finite_ext; [now apply Finite_tx in Fd'; destruct Fd' as [r0 Fd']; apply toX_fin_iff in Fd' | now apply Finite_tx in Fd; destruct Fd as [r0 Fd]; apply toX_fin_iff in Fd | | now symmetry]. change (real_of (A := IEEE f P) d' = real_of (A := IEEE f P) d). rewrite E, Z. ring. }
    subst d'. apply Finite_real in Fd. rewrite Z in Fd. destruct (div_zero d Fd) as [b Q]. rewrite !Q. destruct N as (r & N1 & N2 & _). rewrite N1, N2. rewrite (zq_scale b k (Fin r)). cbn [xscale].
    set (z := r * bpow radix2 k). clearbody z. unfold zq, xsigned_inf. destruct b; repeat match goal with |- context [Rlt_bool ?u ?v] => destruct (Rlt_bool_spec u v) end; reflexivity.
  - destruct Rd as [|Rd]; [contradiction|]. apply SC_leaf in Hd. destruct Hd as (s & D1 & D2 & [m D3] & D4). assert (Es : s = real_of d) by (symmetry; now apply real_of_tx).
    assert (L : bpow radix2 (1 - emax f / 6 - prec f + Z.max 0 (- l)) <= Rabs s).
    { assert (m <> 0)%Z by (intros ->; apply Z; rewrite <- Es, D3; ring). rewrite D3, Rabs_mult, <- abs_IZR, (Rabs_pos_eq (bpow radix2 _)) by apply bpow_ge_0. assert (Q : (1 <= Z.abs m)%Z) by lia. apply (IZR_le 1) in Q. pose proof (bpow_gt_0 radix2 (1 - emax f / 6 - prec f + Z.max 0 (- l))). nra. }
    destruct (SC_div _ _ _ _ _ _ _ _ _ _ _ N D1 D2 (conj L D4)) as (q & Q1 & Q2); try arith0 f. rewrite Q1, Q2. reflexivity.
Qed.
Lemma SC_div1 f (P : platform f) (x y w w' : num (IEEE f P)) k e B : SC x y k e B -> tx w = Fin 1 -> tx w' = Fin 1 -> SC (sdiv x w) (sdiv y w') k e B.
Proof. intros (r & E1 & E2 & H) W W'. exists r. now rewrite !div_1. Qed.
Lemma SC_l f (P : platform f) (x y : num (IEEE f P)) k e B : SC x y k e B -> SC x y (0 + k) e B.
Proof. now rewrite Z.add_0_l. Qed.
Lemma times_l f (P : platform f) (x y : num (IEEE f P)) k : times2 (0 + k) x y -> times2 k x y.
Proof. now rewrite Z.add_0_l. Qed.
Ltac inr H := repeat match goal with Q : Forall _ (_ :: _) |- _ => apply Forall_cons_iff in Q; let G := fresh "G" in destruct Q as [G Q]; apply SC_in_range in G end.
Ltac leaf H := apply SC_leaf in H; cbn [coord2 coord3 vcoord2 vcoord3] in H.
Lemma C76_unit_change_2d_pf : forall (f : format) (P : platform f) (k : Z) (c : num (IEEE f P)) (v : Vector2 (num (IEEE f P))) (p : Point2 (num (IEEE f P))), (Z.abs k <= emax f / 4)%Z -> RealVal c (bpow radix2 k) ->
  (forall d, in_range (emax f / 4) (vcoord2 v d)) -> (forall d, in_range (emax f / 4) (coord2 p d)) ->
  Vtimes2 k v (v2_mul v c) /\ Vtimes2 k v (v2_lmul c v) /\ Vtimes2 (- k) v (v2_div v c) /\ Ptimes2 k p (p2_mul p c) /\ Ptimes2 k p (p2_lmul c p) /\ Ptimes2 (- k) p (p2_div p c) /\
  VsameSign2 v (v2_mul v c).
Proof.
  intros f P k c v p Hk Hc Hv Hp. apply RealVal_tx in Hc.
  assert (M : forall x : num (IEEE f P), in_range (emax f / 4) x -> times2 k x (smul x c)) by (intros; now apply mul_pow).
  assert (D : forall x : num (IEEE f P), in_range (emax f / 4) x -> times2 (- k) x (sdiv x c)) by (intros; now apply div_pow).
  assert (G : forall x : num (IEEE f P), in_range (emax f / 4) x -> Bsign x = Bsign (smul x c)) by (intros; now apply (sign_pow k)).
  conjs; intros d; [specialize (Hv d) | specialize (Hv d) | specialize (Hv d) | specialize (Hp d) | specialize (Hp d) | specialize (Hp d) | specialize (Hv d)];
    destruct d; unfold v2_lmul, p2_lmul, v2_mul, v2_div, p2_mul, p2_div, v2_new, p2_new; cbn [coord2 vcoord2 p2x p2y v2x v2y] in *; auto.
Qed.
Lemma C76_unit_change_3d_pf : forall (f : format) (P : platform f) (k : Z) (c : num (IEEE f P)) (v : Vector3 (num (IEEE f P))) (p : Point3 (num (IEEE f P))), (Z.abs k <= emax f / 4)%Z -> RealVal c (bpow radix2 k) ->
  (forall d, in_range (emax f / 4) (vcoord3 v d)) -> (forall d, in_range (emax f / 4) (coord3 p d)) ->
  Vtimes3 k v (v3_mul v c) /\ Vtimes3 k v (v3_lmul c v) /\ Vtimes3 (- k) v (v3_div v c) /\ Ptimes3 k p (p3_mul p c) /\ Ptimes3 k p (p3_lmul c p) /\ Ptimes3 (- k) p (p3_div p c) /\
  VsameSign3 v (v3_mul v c).
Proof.
  intros f P k c v p Hk Hc Hv Hp. apply RealVal_tx in Hc.
  assert (M : forall x : num (IEEE f P), in_range (emax f / 4) x -> times2 k x (smul x c)) by (intros; now apply mul_pow).
  assert (D : forall x : num (IEEE f P), in_range (emax f / 4) x -> times2 (- k) x (sdiv x c)) by (intros; now apply div_pow).
  assert (G : forall x : num (IEEE f P), in_range (emax f / 4) x -> Bsign x = Bsign (smul x c)) by (intros; now apply (sign_pow k)).
  conjs; intros d; [specialize (Hv d) | specialize (Hv d) | specialize (Hv d) | specialize (Hp d) | specialize (Hp d) | specialize (Hp d) | specialize (Hv d)];
    destruct d; unfold v3_lmul, p3_lmul, v3_mul, v3_div, p3_mul, p3_div, v3_new, p3_new; cbn [coord3 vcoord3 p3x p3y p3z v3x v3y v3z] in *; auto.
Qed.
Lemma C76_sums_2d_pf : forall (f : format) (P : platform f) (k : Z) (p q p' q' : Point2 (num (IEEE f P))) (v w v' w' : Vector2 (num (IEEE f P))), (Z.abs k <= emax f / 2)%Z ->
  Prescaled2 (emax f / 4) k p p' -> Prescaled2 (emax f / 4) k q q' -> Vrescaled2 (emax f / 4) k v v' -> Vrescaled2 (emax f / 4) k w w' ->
  Ptimes2 k (p2_add p v) (p2_add p' v') /\ Ptimes2 k (p2_sub_v p v) (p2_sub_v p' v') /\ Vtimes2 k (p2_sub p q) (p2_sub p' q') /\
  Vtimes2 k (v2_add v w) (v2_add v' w') /\ Vtimes2 k (v2_sub v w) (v2_sub v' w').
Proof.
  intros f P k p q p' q' v w v' w' Hk Hp Hq Hv Hw. conjs; intros d; pose proof (Hp d) as H1; pose proof (Hq d) as H2; pose proof (Hv d) as H3; pose proof (Hw d) as H4;
  destruct d; leaf H1; leaf H2; leaf H3; leaf H4; unfold p2_add, p2_sub_v, p2_sub, v2_add, v2_sub, p2_new, v2_new; cbn [coord2 vcoord2 p2x p2y v2x v2y] in *; (eapply SC_times; sc_t; arith0 f).
Qed.
Lemma C76_sums_3d_pf : forall (f : format) (P : platform f) (k : Z) (p q p' q' : Point3 (num (IEEE f P))) (v w v' w' : Vector3 (num (IEEE f P))), (Z.abs k <= emax f / 2)%Z ->
  Prescaled3 (emax f / 4) k p p' -> Prescaled3 (emax f / 4) k q q' -> Vrescaled3 (emax f / 4) k v v' -> Vrescaled3 (emax f / 4) k w w' ->
  Ptimes3 k (p3_add p v) (p3_add p' v') /\ Ptimes3 k (p3_sub_v p v) (p3_sub_v p' v') /\ Vtimes3 k (p3_sub p q) (p3_sub p' q') /\
  Vtimes3 k (v3_add v w) (v3_add v' w') /\ Vtimes3 k (v3_sub v w) (v3_sub v' w').
Proof.
  intros f P k p q p' q' v w v' w' Hk Hp Hq Hv Hw. conjs; intros d; pose proof (Hp d) as H1; pose proof (Hq d) as H2; pose proof (Hv d) as H3; pose proof (Hw d) as H4;
  destruct d; leaf H1; leaf H2; leaf H3; leaf H4; unfold p3_add, p3_sub_v, p3_sub, v3_add, v3_sub, p3_new, v3_new; cbn [coord3 vcoord3 p3x p3y p3z v3x v3y v3z] in *; (eapply SC_times; sc_t; arith0 f).
Qed.
Lemma add_zero {A : arith} (x y : num A) : NotNeg x -> NotNeg y -> tx (sadd x y) = Fin 0 -> tx x = Fin 0 /\ tx y = Fin 0.
Proof.
  intros N1 N2 E. apply NotNeg_tx in N1, N2. rewrite tx_add in E.
  destruct (tx x) as [a| | |] eqn:X, (tx y) as [b| | |] eqn:Y; try discriminate; cbn [xadd] in E; rewrite ?xr_pinf, ?xr_ninf, ?xr_xnan in E; try discriminate.
  apply nnx_fin in N1, N2.
  assert (L1 : xle (Fin a) (Fin 0) = true) by (rewrite <- E, <- X, <- (xr_tx x), X; apply xr_mono, xle_fin; lra).
  assert (L2 : xle (Fin b) (Fin 0) = true) by (rewrite <- E, <- Y, <- (xr_tx y), Y; apply xr_mono, xle_fin; lra).
  apply xle_fin in L1, L2. split; f_equal; lra.
Qed.
Lemma sq_zero f (P : platform f) (x : num (IEEE f P)) r n : tx x = Fin r -> mult2 n r -> (femin f <= n + n)%Z -> tx (smul x x) = Fin 0 -> r = 0.
Proof.
  intros E [m M] K Z. rewrite tx_mul, E in Z. cbn [xmul] in Z. apply xr_fin_inv in Z. destruct (Req_dec r 0) as [|N]; [assumption|]. exfalso.
  assert (Q : bpow radix2 (n + n) <= r * r).
  { assert (m <> 0)%Z by (intros ->; apply N; rewrite M; ring). assert (1 <= m * m)%Z by nia. apply (IZR_le 1) in H0. rewrite mult_IZR in H0. rewrite M, bpow_plus. pose proof (bpow_gt_0 radix2 n). 
    replace (IZR m * bpow radix2 n * (IZR m * bpow radix2 n)) with ((IZR m * IZR m) * (bpow radix2 n * bpow radix2 n)) by ring. assert (0 < bpow radix2 n * bpow radix2 n) by nra. nra. }
  apply (rnd_mono f) in Q. rewrite (rnd_repr f (bpow radix2 (n + n))) in Q; [|apply generic_format_bpow; unfold fexp_f, FLT_exp; pose proof (fmt_facts f); lia].
  change (arnd (A := IEEE f P)) with (rnd f) in Z. pose proof (bpow_gt_0 radix2 (n + n)). lra.
Qed.
Lemma SC_dot2 f (P : platform f) k l (v v' w w' : Vector2 (num (IEEE f P))) : (Z.abs k <= emax f / 2)%Z -> (Z.abs l <= emax f / 2)%Z -> Vrescaled2 (emax f / 4) k v v' -> Vrescaled2 (emax f / 4) l w w' ->
  exists e B, SC (v2_dot v w) (v2_dot v' w') (k + l) e B.
Proof.
  intros Hk Hl Hv Hw. pose proof (Hv D2X) as VX. pose proof (Hw D2X) as WX. leaf VX. leaf WX. pose proof (Hv D2Y) as VY. pose proof (Hw D2Y) as WY. leaf VY. leaf WY. do 2 eexists. unfold v2_dot. sc_t; arith0 f.
Qed.
Lemma dot_self_nn2 {A : arith} (v : Vector2 (num A)) r : tx (v2_dot v v) = Fin r -> 0 <= r.
Proof. intros E. apply nnx_fin. rewrite <- E. apply NotNeg_tx. unfold v2_dot. repeat apply add_NotNeg; apply sqr_NotNeg. Qed.
Lemma dot_zero2 f (P : platform f) (v : Vector2 (num (IEEE f P))) n : (forall d, exists r, tx (vcoord2 v d) = Fin r /\ mult2 n r) -> (femin f <= n + n)%Z -> tx (v2_dot v v) = Fin 0 -> forall d, tx (vcoord2 v d) = Fin 0.
Proof.
  intros H K Z d. destruct (H d) as (r & E & M). rewrite E. f_equal. apply (sq_zero _ _ _ _ _ E M K). unfold v2_dot in Z. apply add_zero in Z; [|apply sqr_NotNeg | apply sqr_NotNeg].
  destruct d; cbn [vcoord2]; tauto.
Qed.
(* the squared length of a vector that is a multiple of 2^n and at most 2^B in each component *)
Lemma SC_len2 f (P : platform f) k n B (v v' : Vector2 (num (IEEE f P))) : (forall d, SC (vcoord2 v d) (vcoord2 v' d) k n B) ->
  (femin f <= n + n)%Z -> (femin f <= (n + k) + (n + k))%Z -> (n <= B)%Z -> (B + B + 2 < emax f)%Z -> (B + k + (B + k) + 2 < emax f)%Z ->
  exists s, tx (v2_length v) = Fin s /\ tx (v2_length v') = Fin (s * bpow radix2 k) /\ (s = 0 -> forall d, tx (vcoord2 v d) = Fin 0) /\ (s <> 0 -> bpow radix2 n <= s) /\ 0 <= s <= bpow radix2 (B + 1).
Proof.
  intros H K1 K2 K3 K4 K5.
  assert (S : SC (v2_dot v v) (v2_dot v' v') (k + k) (n + n) ((B + 1) + (B + 1))).
  { pose proof (H D2X) as HX. pose proof (H D2Y) as HY. cbn [vcoord2] in *. unfold v2_dot. eapply SC_weak; [sc_t; arith0 f | |]; lia. }
  destruct S as (r & E & S). pose proof (dot_self_nn2 _ _ E) as R0. assert (S' : SC (v2_dot v v) (v2_dot v' v') (k + k) (n + n) ((B + 1) + (B + 1))) by (exists r; auto).
  destruct (SC_sqrt _ _ _ _ _ r E R0 S') as (s & E1 & E2 & N & Z & Bd); try arith0 f.
  exists s. split; [exact E1|]. split; [exact E2|]. split; [|split; [|exact Bd]].
  - intros ->. assert (r = 0) by (destruct (Req_dec r 0) as [|NN]; [assumption|]; specialize (N NN); pose proof (bpow_gt_0 radix2 n); lra). subst r. apply (dot_zero2 _ _ _ n); [|assumption|exact E].
    intros d. destruct (H d) as (x & X1 & _ & X2 & _). eauto.
  - intros NZ. apply N. intros ->. apply NZ. auto.
Qed.
Lemma SC_dot3 f (P : platform f) k l (v v' w w' : Vector3 (num (IEEE f P))) : (Z.abs k <= emax f / 2)%Z -> (Z.abs l <= emax f / 2)%Z -> Vrescaled3 (emax f / 4) k v v' -> Vrescaled3 (emax f / 4) l w w' ->
  exists e B, SC (v3_dot v w) (v3_dot v' w') (k + l) e B.
Proof.
  intros Hk Hl Hv Hw. pose proof (Hv D3X) as VX. pose proof (Hw D3X) as WX. leaf VX. leaf WX. pose proof (Hv D3Y) as VY. pose proof (Hw D3Y) as WY. leaf VY. leaf WY. pose proof (Hv D3Z) as VZ. pose proof (Hw D3Z) as WZ. leaf VZ. leaf WZ. do 2 eexists. unfold v3_dot. sc_t; arith0 f.
Qed.
Lemma dot_self_nn3 {A : arith} (v : Vector3 (num A)) r : tx (v3_dot v v) = Fin r -> 0 <= r.
Proof. intros E. apply nnx_fin. rewrite <- E. apply NotNeg_tx. unfold v3_dot. repeat apply add_NotNeg; apply sqr_NotNeg. Qed.
Lemma dot_zero3 f (P : platform f) (v : Vector3 (num (IEEE f P))) n : (forall d, exists r, tx (vcoord3 v d) = Fin r /\ mult2 n r) -> (femin f <= n + n)%Z -> tx (v3_dot v v) = Fin 0 -> forall d, tx (vcoord3 v d) = Fin 0.
Proof.
  intros H K Z d. destruct (H d) as (r & E & M). rewrite E. f_equal. apply (sq_zero _ _ _ _ _ E M K). unfold v3_dot in Z. apply add_zero in Z; [|apply add_NotNeg; apply sqr_NotNeg | apply sqr_NotNeg]. destruct Z as [Z Z3]. apply add_zero in Z; [|apply sqr_NotNeg | apply sqr_NotNeg].
  destruct d; cbn [vcoord3]; tauto.
Qed.
(* the squared length of a vector that is a multiple of 2^n and at most 2^B in each component *)
Lemma SC_len3 f (P : platform f) k n B (v v' : Vector3 (num (IEEE f P))) : (forall d, SC (vcoord3 v d) (vcoord3 v' d) k n B) ->
  (femin f <= n + n)%Z -> (femin f <= (n + k) + (n + k))%Z -> (n <= B)%Z -> (B + B + 2 < emax f)%Z -> (B + k + (B + k) + 2 < emax f)%Z ->
  exists s, tx (v3_length v) = Fin s /\ tx (v3_length v') = Fin (s * bpow radix2 k) /\ (s = 0 -> forall d, tx (vcoord3 v d) = Fin 0) /\ (s <> 0 -> bpow radix2 n <= s) /\ 0 <= s <= bpow radix2 (B + 1).
Proof.
  intros H K1 K2 K3 K4 K5.
  assert (S : SC (v3_dot v v) (v3_dot v' v') (k + k) (n + n) ((B + 1) + (B + 1))).
  { pose proof (H D3X) as HX. pose proof (H D3Y) as HY. pose proof (H D3Z) as HZ. cbn [vcoord3] in *. unfold v3_dot. eapply SC_weak; [sc_t; arith0 f | |]; lia. }
  destruct S as (r & E & S). pose proof (dot_self_nn3 _ _ E) as R0. assert (S' : SC (v3_dot v v) (v3_dot v' v') (k + k) (n + n) ((B + 1) + (B + 1))) by (exists r; auto).
  destruct (SC_sqrt _ _ _ _ _ r E R0 S') as (s & E1 & E2 & N & Z & Bd); try arith0 f.
  exists s. split; [exact E1|]. split; [exact E2|]. split; [|split; [|exact Bd]].
  - intros ->. assert (r = 0) by (destruct (Req_dec r 0) as [|NN]; [assumption|]; specialize (N NN); pose proof (bpow_gt_0 radix2 n); lra). subst r. apply (dot_zero3 _ _ _ n); [|assumption|exact E].
    intros d. destruct (H d) as (x & X1 & _ & X2 & _). eauto.
  - intros NZ. apply N. intros ->. apply NZ. auto.
Qed.
Lemma C76_dot_2d_pf : forall (f : format) (P : platform f) (k l : Z) (v v' w w' : Vector2 (num (IEEE f P))), (Z.abs k <= emax f / 2)%Z -> (Z.abs l <= emax f / 2)%Z ->
  Vrescaled2 (emax f / 4) k v v' -> Vrescaled2 (emax f / 4) l w w' -> times2 (k + l) (v2_dot v w) (v2_dot v' w').
Proof.
  intros f P k l v v' w w' Hk Hl Hv Hw. destruct (SC_dot2 f P k l v v' w w' Hk Hl Hv Hw) as (e & B & H). now apply SC_times in H.
Qed.
Lemma C76_dot_3d_pf : forall (f : format) (P : platform f) (k l : Z) (v v' w w' : Vector3 (num (IEEE f P))), (Z.abs k <= emax f / 2)%Z -> (Z.abs l <= emax f / 2)%Z ->
  Vrescaled3 (emax f / 4) k v v' -> Vrescaled3 (emax f / 4) l w w' -> times2 (k + l) (v3_dot v w) (v3_dot v' w').
Proof.
  intros f P k l v v' w w' Hk Hl Hv Hw. destruct (SC_dot3 f P k l v v' w w' Hk Hl Hv Hw) as (e & B & H). now apply SC_times in H.
Qed.
Lemma C76_cross_pf : forall (f : format) (P : platform f) (k l : Z) (v v' w w' : Vector3 (num (IEEE f P))), (Z.abs k <= emax f / 2)%Z -> (Z.abs l <= emax f / 2)%Z ->
  Vrescaled3 (emax f / 4) k v v' -> Vrescaled3 (emax f / 4) l w w' -> Vtimes3 (k + l) (v3_cross v w) (v3_cross v' w').
Proof.
  intros f P k l v v' w w' Hk Hl Hv Hw d. pose proof (Hv D3X) as VX. pose proof (Hw D3X) as WX. leaf VX. leaf WX. pose proof (Hv D3Y) as VY. pose proof (Hw D3Y) as WY. leaf VY. leaf WY. pose proof (Hv D3Z) as VZ. pose proof (Hw D3Z) as WZ. leaf VZ. leaf WZ. destruct d; cbn [vcoord3 v3_cross v3_new v3x v3y v3z]; (eapply SC_times; sc_t; arith0 f).
Qed.
Lemma C76_length_2d_pf : forall (f : format) (P : platform f) (k : Z) (v v' : Vector2 (num (IEEE f P))) (p p' q q' : Point2 (num (IEEE f P))), (Z.abs k <= emax f / 2)%Z ->
  Vrescaled2 (emax f / 4) k v v' -> Prescaled2 (emax f / 4) k p p' -> Prescaled2 (emax f / 4) k q q' ->
  times2 k (v2_length v) (v2_length v') /\ times2 k (p2_distance p q) (p2_distance p' q').
Proof.
  intros f P k v v' p p' q q' Hk Hv Hp Hq. split.
  - destruct (SC_len2 f P k (1 - emax f / 4 - prec f + Z.max 0 (- k)) (emax f / 4 - Z.max 0 k) v v') as (s & E1 & E2 & _); try arith0 f; [intros d; now apply SC_leaf|]. now apply tx_times2 with s.
  - destruct (SC_len2 f P k (1 - emax f / 4 - prec f + Z.max 0 (- k)) (emax f / 4 - Z.max 0 k + 1) (p2_sub q p) (p2_sub q' p')) as (s & E1 & E2 & _); try arith0 f; [|now apply tx_times2 with s].
    intros d. pose proof (Hp d) as H1. pose proof (Hq d) as H2. leaf H1. leaf H2. destruct d; unfold p2_sub, v2_new; cbn [coord2 vcoord2 p2x p2y v2x v2y] in *; (eapply SC_weak; [sc_t; arith0 f | |]; lia).
Qed.
Lemma C76_length_3d_pf : forall (f : format) (P : platform f) (k : Z) (v v' : Vector3 (num (IEEE f P))) (p p' q q' : Point3 (num (IEEE f P))), (Z.abs k <= emax f / 2)%Z ->
  Vrescaled3 (emax f / 4) k v v' -> Prescaled3 (emax f / 4) k p p' -> Prescaled3 (emax f / 4) k q q' ->
  times2 k (v3_length v) (v3_length v') /\ times2 k (p3_distance p q) (p3_distance p' q').
Proof.
  intros f P k v v' p p' q q' Hk Hv Hp Hq. split.
  - destruct (SC_len3 f P k (1 - emax f / 4 - prec f + Z.max 0 (- k)) (emax f / 4 - Z.max 0 k) v v') as (s & E1 & E2 & _); try arith0 f; [intros d; now apply SC_leaf|]. now apply tx_times2 with s.
  - destruct (SC_len3 f P k (1 - emax f / 4 - prec f + Z.max 0 (- k)) (emax f / 4 - Z.max 0 k + 1) (p3_sub q p) (p3_sub q' p')) as (s & E1 & E2 & _); try arith0 f; [|now apply tx_times2 with s].
    intros d. pose proof (Hp d) as H1. pose proof (Hq d) as H2. leaf H1. leaf H2. destruct d; unfold p3_sub, v3_new; cbn [coord3 vcoord3 p3x p3y p3z v3x v3y v3z] in *; (eapply SC_weak; [sc_t; arith0 f | |]; lia).
Qed.
Lemma C76_normalize_2d_pf : forall (f : format) (P : platform f) (k : Z) (v v' : Vector2 (num (IEEE f P))), (Z.abs k <= emax f / 2)%Z -> Vrescaled2 (emax f / 4) k v v' ->
  (exists d, real_of (vcoord2 v d) <> 0) -> VEq2 (v2_normalize v') (v2_normalize v).
Proof.
  intros f P k v v' Hk Hv [i NZ].
  destruct (SC_len2 f P k (1 - emax f / 4 - prec f + Z.max 0 (- k)) (emax f / 4 - Z.max 0 k) v v') as (s & E1 & E2 & Z & N & S1 & S2); try arith0 f; [intros d; now apply SC_leaf|].
  assert (Ns : s <> 0) by (intros C; apply NZ; now apply real_of_tx, Z). specialize (N Ns).
  intros d. assert (Q : exists q, tx (sdiv (vcoord2 v d) (v2_length v)) = Fin q /\ tx (sdiv (vcoord2 v' d) (v2_length v')) = Fin (q * bpow radix2 (k - k))).
  { eapply SC_div with (s := s) (l := k) (k := k); [apply SC_leaf, Hv | exact E1 | exact E2 | rewrite Rabs_pos_eq by assumption; split; [exact N | exact S2] | | | |]; arith0 f. }
  destruct Q as (q & Q1 & Q2). rewrite Z.sub_diag in Q2. cbn [bpow] in Q2. rewrite Rmult_1_r in Q2.
  apply Eqs_tx. destruct d; unfold v2_normalize, v2_div, v2_new; cbn [vcoord2 p2x p2y v2x v2y] in *; rewrite Q1, Q2; split; congruence || discriminate.
Qed.
Lemma C76_normalize_3d_pf : forall (f : format) (P : platform f) (k : Z) (v v' : Vector3 (num (IEEE f P))), (Z.abs k <= emax f / 2)%Z -> Vrescaled3 (emax f / 4) k v v' ->
  (exists d, real_of (vcoord3 v d) <> 0) -> VEq3 (v3_normalize v') (v3_normalize v).
Proof.
  intros f P k v v' Hk Hv [i NZ].
  destruct (SC_len3 f P k (1 - emax f / 4 - prec f + Z.max 0 (- k)) (emax f / 4 - Z.max 0 k) v v') as (s & E1 & E2 & Z & N & S1 & S2); try arith0 f; [intros d; now apply SC_leaf|].
  assert (Ns : s <> 0) by (intros C; apply NZ; now apply real_of_tx, Z). specialize (N Ns).
  intros d. assert (Q : exists q, tx (sdiv (vcoord3 v d) (v3_length v)) = Fin q /\ tx (sdiv (vcoord3 v' d) (v3_length v')) = Fin (q * bpow radix2 (k - k))).
  { eapply SC_div with (s := s) (l := k) (k := k); [apply SC_leaf, Hv | exact E1 | exact E2 | rewrite Rabs_pos_eq by assumption; split; [exact N | exact S2] | | | |]; arith0 f. }
  destruct Q as (q & Q1 & Q2). rewrite Z.sub_diag in Q2. cbn [bpow] in Q2. rewrite Rmult_1_r in Q2.
  apply Eqs_tx. destruct d; unfold v3_normalize, v3_div, v3_new; cbn [vcoord3 p3x p3y p3z v3x v3y v3z] in *; rewrite Q1, Q2; split; congruence || discriminate.
Qed.
Lemma C76_comparisons_2d_pf : forall (f : format) (P : platform f) (k : Z) (v v' w w' : Vector2 (num (IEEE f P))) (p p' q q' r r' : Point2 (num (IEEE f P))), (Z.abs k <= emax f / 2)%Z ->
  Vrescaled2 (emax f / 4) k v v' -> Vrescaled2 (emax f / 4) k w w' -> Prescaled2 (emax f / 4) k p p' -> Prescaled2 (emax f / 4) k q q' -> Prescaled2 (emax f / 4) k r r' ->
  v2_is_shorter_than v' w' = v2_is_shorter_than v w /\ v2_is_longer_than v' w' = v2_is_longer_than v w /\
  p2_is_closer_to p' q' r' = p2_is_closer_to p q r /\ p2_is_farther_from p' q' r' = p2_is_farther_from p q r /\
  v2_max_dimension v' = v2_max_dimension v /\ v2_min_dimension v' = v2_min_dimension v.
Proof.
  intros f P k v v' w w' p p' q q' r r' Hk Hv Hw Hp Hq Hr.
  destruct (SC_dot2 f P k k v v' v v' Hk Hk Hv Hv) as (e1 & B1 & D1). destruct (SC_dot2 f P k k w w' w w' Hk Hk Hw Hw) as (e2 & B2 & D2).
  assert (DD : forall a a', Prescaled2 (emax f / 4) k a a' -> exists e B, SC (v2_dot (p2_sub a p) (p2_sub a p)) (v2_dot (p2_sub a' p') (p2_sub a' p')) (k + k) e B).
  { clear - Hk Hp. intros q q' Hq. pose proof (Hp D2X) as PX. pose proof (Hq D2X) as QX. leaf PX. leaf QX. pose proof (Hp D2Y) as PY. pose proof (Hq D2Y) as QY. leaf PY. leaf QY. do 2 eexists. unfold v2_dot, p2_sub, v2_new. cbn [p2x p2y v2x v2y]. sc_t; arith0 f. }
  destruct (DD _ _ Hq) as (e3 & B3 & D3). destruct (DD _ _ Hr) as (e4 & B4 & D4).
  assert (AB : forall d, exists e B, SC (sabs (vcoord2 v d)) (sabs (vcoord2 v' d)) k e B) by (intros d; do 2 eexists; apply SC_abs, SC_leaf, Hv).
  split; [exact (SC_lt _ _ _ _ _ _ _ _ _ D1 D2)|]. split; [exact (SC_lt _ _ _ _ _ _ _ _ _ D2 D1)|]. split; [exact (SC_lt _ _ _ _ _ _ _ _ _ D3 D4)|]. split; [exact (SC_lt _ _ _ _ _ _ _ _ _ D4 D3)|].
  destruct (AB D2X) as (ex & Bx & AX). destruct (AB D2Y) as (ey & By & AY). cbn [vcoord2] in *. unfold v2_max_dimension, v2_min_dimension, v2_abs, v2_new. cbn [v2x v2y]. rewrite ?(SC_lt _ _ _ _ _ _ _ _ _ AX AY), ?(SC_lt _ _ _ _ _ _ _ _ _ AY AX), ?(SC_le _ _ _ _ _ _ _ _ _ AX AY). split; reflexivity.
Qed.
Lemma C76_comparisons_3d_pf : forall (f : format) (P : platform f) (k : Z) (v v' w w' : Vector3 (num (IEEE f P))) (p p' q q' r r' : Point3 (num (IEEE f P))), (Z.abs k <= emax f / 2)%Z ->
  Vrescaled3 (emax f / 4) k v v' -> Vrescaled3 (emax f / 4) k w w' -> Prescaled3 (emax f / 4) k p p' -> Prescaled3 (emax f / 4) k q q' -> Prescaled3 (emax f / 4) k r r' ->
  v3_is_shorter_than v' w' = v3_is_shorter_than v w /\ v3_is_longer_than v' w' = v3_is_longer_than v w /\
  p3_is_closer_to p' q' r' = p3_is_closer_to p q r /\ p3_is_farther_from p' q' r' = p3_is_farther_from p q r /\
  v3_max_dimension v' = v3_max_dimension v /\ v3_min_dimension v' = v3_min_dimension v.
Proof.
  intros f P k v v' w w' p p' q q' r r' Hk Hv Hw Hp Hq Hr.
  destruct (SC_dot3 f P k k v v' v v' Hk Hk Hv Hv) as (e1 & B1 & D1). destruct (SC_dot3 f P k k w w' w w' Hk Hk Hw Hw) as (e2 & B2 & D2).
  assert (DD : forall a a', Prescaled3 (emax f / 4) k a a' -> exists e B, SC (v3_dot (p3_sub a p) (p3_sub a p)) (v3_dot (p3_sub a' p') (p3_sub a' p')) (k + k) e B).
  { clear - Hk Hp. intros q q' Hq. pose proof (Hp D3X) as PX. pose proof (Hq D3X) as QX. leaf PX. leaf QX. pose proof (Hp D3Y) as PY. pose proof (Hq D3Y) as QY. leaf PY. leaf QY. pose proof (Hp D3Z) as PZ. pose proof (Hq D3Z) as QZ. leaf PZ. leaf QZ. do 2 eexists. unfold v3_dot, p3_sub, v3_new. cbn [p3x p3y p3z v3x v3y v3z]. sc_t; arith0 f. }
  destruct (DD _ _ Hq) as (e3 & B3 & D3). destruct (DD _ _ Hr) as (e4 & B4 & D4).
  assert (AB : forall d, exists e B, SC (sabs (vcoord3 v d)) (sabs (vcoord3 v' d)) k e B) by (intros d; do 2 eexists; apply SC_abs, SC_leaf, Hv).
  split; [exact (SC_lt _ _ _ _ _ _ _ _ _ D1 D2)|]. split; [exact (SC_lt _ _ _ _ _ _ _ _ _ D2 D1)|]. split; [exact (SC_lt _ _ _ _ _ _ _ _ _ D3 D4)|]. split; [exact (SC_lt _ _ _ _ _ _ _ _ _ D4 D3)|].
  destruct (AB D3X) as (ex & Bx & AX). destruct (AB D3Y) as (ey & By & AY). destruct (AB D3Z) as (ez & Bz & AZ). cbn [vcoord3] in *. unfold v3_max_dimension, v3_min_dimension, v3_abs, v3_new. cbn [v3x v3y v3z]. rewrite ?(SC_lt _ _ _ _ _ _ _ _ _ AX AY), ?(SC_lt _ _ _ _ _ _ _ _ _ AX AZ), ?(SC_lt _ _ _ _ _ _ _ _ _ AY AZ), ?(SC_lt _ _ _ _ _ _ _ _ _ AY AX), ?(SC_le _ _ _ _ _ _ _ _ _ AX AY), ?(SC_le _ _ _ _ _ _ _ _ _ AX AZ), ?(SC_le _ _ _ _ _ _ _ _ _ AY AZ), ?(SC_lt _ _ _ _ _ _ _ _ _ AZ AX), ?(SC_lt _ _ _ _ _ _ _ _ _ AZ AY). split; reflexivity.
Qed.
Lemma C76_ray_at_2d_pf : forall (f : format) (P : platform f) (k : Z) (r r' : Ray2 (num (IEEE f P))) (t : num (IEEE f P)), (Z.abs k <= emax f / 2)%Z ->
  Prescaled2 (emax f / 4) k (r2_origin r) (r2_origin r') -> Vrescaled2 (emax f / 4) k (r2_direction r) (r2_direction r') -> in_range (emax f / 4) t ->
  Ptimes2 k (r2_at r t) (r2_at r' t).
Proof.
  intros f P k [o v] [o' v'] t Hk Ho Hv Ht d. cbn [r2_origin r2_direction] in *. pose proof (Ho d) as H1. pose proof (Hv d) as H2. leaf H1. leaf H2. apply SC_in_range in Ht. apply SC_times with (e := Z.min (1 - emax f / 4 - prec f + Z.max 0 (- k)) (1 - emax f / 4 - prec f + Z.max 0 (- k) + (1 - emax f / 4 - prec f))) (B := (Z.max (emax f / 4 - Z.max 0 k) (emax f / 4 - Z.max 0 k + emax f / 4) + 1)%Z).
  destruct d; unfold r2_at, p2_add, v2_mul, p2_new, v2_new; cbn [coord2 vcoord2 p2x p2y v2x v2y r2_origin r2_direction] in *; (apply SC_add; [exact H1 | | arith0 f | arith0 f]; rewrite <- (Z.add_0_r k) at 1; apply SC_mul; [exact H2 | exact Ht | arith0 f | arith0 f]).
Qed.
Lemma C76_ray_at_3d_pf : forall (f : format) (P : platform f) (k : Z) (r r' : Ray3 (num (IEEE f P))) (t : num (IEEE f P)), (Z.abs k <= emax f / 2)%Z ->
  Prescaled3 (emax f / 4) k (r3_origin r) (r3_origin r') -> Vrescaled3 (emax f / 4) k (r3_direction r) (r3_direction r') -> in_range (emax f / 4) t ->
  Ptimes3 k (r3_at r t) (r3_at r' t).
Proof.
  intros f P k [o v] [o' v'] t Hk Ho Hv Ht d. cbn [r3_origin r3_direction] in *. pose proof (Ho d) as H1. pose proof (Hv d) as H2. leaf H1. leaf H2. apply SC_in_range in Ht. apply SC_times with (e := Z.min (1 - emax f / 4 - prec f + Z.max 0 (- k)) (1 - emax f / 4 - prec f + Z.max 0 (- k) + (1 - emax f / 4 - prec f))) (B := (Z.max (emax f / 4 - Z.max 0 k) (emax f / 4 - Z.max 0 k + emax f / 4) + 1)%Z).
  destruct d; unfold r3_at, p3_add, v3_mul, p3_new, v3_new; cbn [coord3 vcoord3 p3x p3y p3z v3x v3y v3z r3_origin r3_direction] in *; (apply SC_add; [exact H1 | | arith0 f | arith0 f]; rewrite <- (Z.add_0_r k) at 1; apply SC_mul; [exact H2 | exact Ht | arith0 f | arith0 f]).
Qed.
Lemma C76_box_extent_center_2d_pf : forall (f : format) (P : platform f) (k : Z) (b b' : BoundingBox2 (num (IEEE f P))), (Z.abs k <= emax f / 2)%Z -> Brescaled2 (emax f / 4) k b b' ->
  (forall d, times2 k (bb2_extent b d) (bb2_extent b' d)) /\ Vtimes2 k (bb2_diagonal b) (bb2_diagonal b') /\ Ptimes2 k (bb2_center b) (bb2_center b').
Proof.
  intros f P k b b' Hk [Hl Hh]. split; [|split]; intros d; pose proof (Hl d) as H1; pose proof (Hh d) as H2; leaf H1; leaf H2.
  1-2: destruct d; unfold bb2_extent, bb2_width, bb2_height,  bb2_diagonal, p2_sub, v2_new; cbn [coord2 vcoord2 p2x p2y v2x v2y] in *; (eapply SC_times; sc_t; arith0 f).
  destruct d; unfold bb2_center, bb2_diagonal, p2_sub, p2_add, v2_mul, p2_new, v2_new; cbn [coord2 vcoord2 p2x p2y v2x v2y] in *;
    (eapply SC_times; eapply SC_add; [eassumption | rewrite <- (Z.add_0_r k) at 1; eapply SC_mul; [sc_t; arith0 f | apply SC_half | |] | |]; arith0 f).
Qed.
Lemma C76_box_extent_center_3d_pf : forall (f : format) (P : platform f) (k : Z) (b b' : BoundingBox3 (num (IEEE f P))), (Z.abs k <= emax f / 2)%Z -> Brescaled3 (emax f / 4) k b b' ->
  (forall d, times2 k (bb3_extent b d) (bb3_extent b' d)) /\ Vtimes3 k (bb3_diagonal b) (bb3_diagonal b') /\ Ptimes3 k (bb3_center b) (bb3_center b').
Proof.
  intros f P k b b' Hk [Hl Hh]. split; [|split]; intros d; pose proof (Hl d) as H1; pose proof (Hh d) as H2; leaf H1; leaf H2.
  1-2: destruct d; unfold bb3_extent, bb3_width, bb3_height, bb3_depth, bb3_diagonal, p3_sub, v3_new; cbn [coord3 vcoord3 p3x p3y p3z v3x v3y v3z] in *; (eapply SC_times; sc_t; arith0 f).
  destruct d; unfold bb3_center, bb3_diagonal, p3_sub, p3_add, v3_mul, p3_new, v3_new; cbn [coord3 vcoord3 p3x p3y p3z v3x v3y v3z] in *;
    (eapply SC_times; eapply SC_add; [eassumption | rewrite <- (Z.add_0_r k) at 1; eapply SC_mul; [sc_t; arith0 f | apply SC_half | |] | |]; arith0 f).
Qed.
Lemma C76_area_2d_pf : forall (f : format) (P : platform f) (k : Z) (b b' : BoundingBox2 (num (IEEE f P))), (Z.abs k <= emax f / 2)%Z -> Brescaled2 (emax f / 4) k b b' -> times2 (k + k) (bb2_area b) (bb2_area b').
Proof.
  intros f P k b b' Hk [Hp Hq]. pose proof (Hp D2X) as PX. pose proof (Hq D2X) as QX. leaf PX. leaf QX. pose proof (Hp D2Y) as PY. pose proof (Hq D2Y) as QY. leaf PY. leaf QY. unfold bb2_area, bb2_size, bb2_width, bb2_height. eapply SC_times. sc_t; arith0 f.
Qed.
Lemma C76_volume_surface_3d_pf : forall (f : format) (P : platform f) (k : Z) (b b' : BoundingBox3 (num (IEEE f P))), (Z.abs k <= emax f / 3)%Z -> Brescaled3 (emax f / 6) k b b' ->
  times2 (k + k + k) (bb3_volume b) (bb3_volume b') /\ times2 (k + k) (bb3_surface_area b) (bb3_surface_area b').
Proof.
  intros f P k b b' Hk [Hp Hq]. pose proof (Hp D3X) as PX. pose proof (Hq D3X) as QX. leaf PX. leaf QX. pose proof (Hp D3Y) as PY. pose proof (Hq D3Y) as QY. leaf PY. leaf QY. pose proof (Hp D3Z) as PZ. pose proof (Hq D3Z) as QZ. leaf PZ. leaf QZ. unfold bb3_volume, bb3_surface_area, bb3_diagonal, bb3_size, bb3_width, bb3_height, bb3_depth, p3_sub, v3_new. cbn [v3x v3y v3z]. split.
  - eapply SC_times. sc_t; arith0 f.
  - rewrite <- (Z.add_0_l (k + k)). eapply SC_times. sc_t; arith0 f.
Qed.
Lemma C76_intersect_ray_2d_pf : forall (f : format) (P : platform f) (k l : Z) (b b' : BoundingBox2 (num (IEEE f P))) (r r' : Ray2 (num (IEEE f P))), (Z.abs k <= emax f / 6)%Z -> (Z.abs l <= emax f / 6)%Z ->
  Brescaled2 (emax f / 6) k b b' -> Prescaled2 (emax f / 6) k (r2_origin r) (r2_origin r') -> Vrescaled2 (emax f / 6) l (r2_direction r) (r2_direction r') -> VsameSign2 (r2_direction r) (r2_direction r') ->
  match bb2_intersect_ray b r, bb2_intersect_ray b' r' with
  | Some (s, e), Some (s', e') => times2x (k - l) s s' /\ times2x (k - l) e e' | None, None => True | _, _ => False end.
Proof.
  intros f P k l b b' r r' Hk Hl [Hb1 Hb2] Ho Hd Hs.
  assert (N : forall d, NR2 b' r' d = xscale (k - l) (NR2 b r d)).
  { intros d. unfold NR2, near. rewrite !tx_smin, xmin_scale. f_equal; apply ray_quot; auto. }
  assert (F : forall d, FR2 b' r' d = xscale (k - l) (FR2 b r d)).
  { intros d. unfold FR2, far. rewrite !tx_smax, xmax_scale. f_equal; apply ray_quot; auto. }
  pose proof (ray_xres2 b r) as X1. pose proof (ray_xres2 b' r') as X2.
  assert (ES : S2 b' r' = xscale (k - l) (S2 b r)) by (unfold S2; rewrite !N, <- (xscale_0 (k - l)) at 1; now rewrite <- !xmax_scale).
  assert (EE : E2 b' r' = xscale (k - l) (E2 b r)) by (unfold E2; rewrite !F, <- (xscale_inf (k - l)) at 1; now rewrite <- !xmin_scale).
  rewrite ES, EE in X2. destruct (bb2_intersect_ray b r) as [[s e]|], (bb2_intersect_ray b' r') as [[s' e']|]; cbn [xres] in *; rewrite ?xle_scale in X2.
  - destruct X1 as (L & A1 & A2), X2 as (_ & A3 & A4). apply xle_nonan in L. split; apply tx_times2x; rewrite ?A1, ?A2, ?A3, ?A4; tauto.
  - destruct X1 as (A1 & _). congruence.
  - destruct X2 as (A1 & _). congruence.
  - exact I.
Qed.
Lemma C76_intersect_ray_3d_pf : forall (f : format) (P : platform f) (k l : Z) (b b' : BoundingBox3 (num (IEEE f P))) (r r' : Ray3 (num (IEEE f P))), (Z.abs k <= emax f / 6)%Z -> (Z.abs l <= emax f / 6)%Z ->
  Brescaled3 (emax f / 6) k b b' -> Prescaled3 (emax f / 6) k (r3_origin r) (r3_origin r') -> Vrescaled3 (emax f / 6) l (r3_direction r) (r3_direction r') -> VsameSign3 (r3_direction r) (r3_direction r') ->
  match bb3_intersect_ray b r, bb3_intersect_ray b' r' with
  | Some (s, e), Some (s', e') => times2x (k - l) s s' /\ times2x (k - l) e e' | None, None => True | _, _ => False end.
Proof.
  intros f P k l b b' r r' Hk Hl [Hb1 Hb2] Ho Hd Hs.
  assert (N : forall d, NR3 b' r' d = xscale (k - l) (NR3 b r d)).
  { intros d. unfold NR3, near. rewrite !tx_smin, xmin_scale. f_equal; apply ray_quot; auto. }
  assert (F : forall d, FR3 b' r' d = xscale (k - l) (FR3 b r d)).
  { intros d. unfold FR3, far. rewrite !tx_smax, xmax_scale. f_equal; apply ray_quot; auto. }
  pose proof (ray_xres3 b r) as X1. pose proof (ray_xres3 b' r') as X2.
  assert (ES : S3 b' r' = xscale (k - l) (S3 b r)) by (unfold S3; rewrite !N, <- (xscale_0 (k - l)) at 1; now rewrite <- !xmax_scale).
  assert (EE : E3 b' r' = xscale (k - l) (E3 b r)) by (unfold E3; rewrite !F, <- (xscale_inf (k - l)) at 1; now rewrite <- !xmin_scale).
  rewrite ES, EE in X2. destruct (bb3_intersect_ray b r) as [[s e]|], (bb3_intersect_ray b' r') as [[s' e']|]; cbn [xres] in *; rewrite ?xle_scale in X2.
  - destruct X1 as (L & A1 & A2), X2 as (_ & A3 & A4). apply xle_nonan in L. split; apply tx_times2x; rewrite ?A1, ?A2, ?A3, ?A4; tauto.
  - destruct X1 as (A1 & _). congruence.
  - destruct X2 as (A1 & _). congruence.
  - exact I.
Qed.
Lemma C76_matrix_vector_2d_pf : forall (f : format) (P : platform f) (k : Z) (m : Matrix3x3 (num (IEEE f P))) (v v' : Vector2 (num (IEEE f P))), (Z.abs k <= emax f / 2)%Z ->
  Forall (in_range (emax f / 4)) (m3_comps m) -> Vrescaled2 (emax f / 4) k v v' -> Vtimes2 k (m3_mul_vector m v) (m3_mul_vector m v').
Proof.
  intros f P k m v v' Hk Hm Hv d. unfold m3_comps in Hm. inr Hm. assert (Hw : Vrescaled2 (emax f / 4) k v v') by exact Hv. pose proof (Hv D2X) as VX. pose proof (Hw D2X) as WX. leaf VX. leaf WX. pose proof (Hv D2Y) as VY. pose proof (Hw D2Y) as WY. leaf VY. leaf WY.
  destruct d; unfold m3_mul_vector, v2_new; cbn [vcoord2 p2x p2y v2x v2y]; apply times_l; (eapply SC_times; sc_t; arith0 f).
Qed.
Lemma C76_affine_point_2d_pf : forall (f : format) (P : platform f) (k : Z) (m m' : Matrix3x3 (num (IEEE f P))) (p p' : Point2 (num (IEEE f P))), (Z.abs k <= emax f / 2)%Z -> Affine3x3 m -> Affine3x3 m' ->
  m3_0 m' = m3_0 m /\ m3_1 m' = m3_1 m /\ m3_3 m' = m3_3 m /\ m3_4 m' = m3_4 m -> Forall (in_range (emax f / 4)) [m3_0 m; m3_1 m; m3_3 m; m3_4 m] ->
  rescaled (emax f / 4) k (m3_2 m) (m3_2 m') -> rescaled (emax f / 4) k (m3_5 m) (m3_5 m') -> Prescaled2 (emax f / 4) k p p' ->
  Ptimes2 k (m3_mul_point m p) (m3_mul_point m' p').
Proof.
  intros f P k m m' p p' Hk Haf Haf' (Q0 & Q1 & Q3 & Q4) Hm T2 T5 Hp d. inr Hm. leaf T2. leaf T5.
  assert (Fp : Finite2 p) by (intros i; apply (Hp i)). assert (Fp' : Finite2 p') by (intros i; apply (Hp i)).
  pose proof (Affine3_w m p Haf Fp) as W. pose proof (Affine3_w m' p' Haf' Fp') as W'. assert (Hq : Prescaled2 (emax f / 4) k p p') by exact Hp. pose proof (Hp D2X) as PX. pose proof (Hq D2X) as QX. leaf PX. leaf QX. pose proof (Hp D2Y) as PY. pose proof (Hq D2Y) as QY. leaf PY. leaf QY.
  destruct d; cbn [coord2 m3_mul_point p2_new p2x p2y v2x v2y] in *; rewrite ?Q0, ?Q1, ?Q3, ?Q4; apply times_l;
    (eapply SC_times, SC_div1; [eapply SC_add; [sc_t; arith0 f | apply SC_l; eassumption | arith0 f | arith0 f] | exact W | exact W']).
Qed.
Lemma C76_matrix_vector_3d_pf : forall (f : format) (P : platform f) (k : Z) (m : Matrix4x4 (num (IEEE f P))) (v v' : Vector3 (num (IEEE f P))), (Z.abs k <= emax f / 2)%Z ->
  Forall (in_range (emax f / 4)) (m4_comps m) -> Vrescaled3 (emax f / 4) k v v' -> Vtimes3 k (m4_mul_vector m v) (m4_mul_vector m v').
Proof.
  intros f P k m v v' Hk Hm Hv d. unfold m4_comps in Hm. inr Hm. assert (Hw : Vrescaled3 (emax f / 4) k v v') by exact Hv. pose proof (Hv D3X) as VX. pose proof (Hw D3X) as WX. leaf VX. leaf WX. pose proof (Hv D3Y) as VY. pose proof (Hw D3Y) as WY. leaf VY. leaf WY. pose proof (Hv D3Z) as VZ. pose proof (Hw D3Z) as WZ. leaf VZ. leaf WZ.
  destruct d; unfold m4_mul_vector, v3_new; cbn [vcoord3 p3x p3y p3z v3x v3y v3z]; apply times_l; (eapply SC_times; sc_t; arith0 f).
Qed.
Lemma C76_affine_point_3d_pf : forall (f : format) (P : platform f) (k : Z) (m m' : Matrix4x4 (num (IEEE f P))) (p p' : Point3 (num (IEEE f P))), (Z.abs k <= emax f / 2)%Z -> Affine4x4 m -> Affine4x4 m' ->
  m4_0 m' = m4_0 m /\ m4_1 m' = m4_1 m /\ m4_2 m' = m4_2 m /\ m4_4 m' = m4_4 m /\ m4_5 m' = m4_5 m /\ m4_6 m' = m4_6 m /\ m4_8 m' = m4_8 m /\ m4_9 m' = m4_9 m /\ m4_10 m' = m4_10 m -> Forall (in_range (emax f / 4)) [m4_0 m; m4_1 m; m4_2 m; m4_4 m; m4_5 m; m4_6 m; m4_8 m; m4_9 m; m4_10 m] ->
  rescaled (emax f / 4) k (m4_3 m) (m4_3 m') -> rescaled (emax f / 4) k (m4_7 m) (m4_7 m') -> rescaled (emax f / 4) k (m4_11 m) (m4_11 m') -> Prescaled3 (emax f / 4) k p p' ->
  Ptimes3 k (m4_mul_point m p) (m4_mul_point m' p').
Proof.
  intros f P k m m' p p' Hk Haf Haf' (Q0 & Q1 & Q2 & Q4 & Q5 & Q6 & Q8 & Q9 & Q10) Hm T3 T7 T11 Hp d. inr Hm. leaf T3. leaf T7. leaf T11.
  assert (Fp : Finite3 p) by (intros i; apply (Hp i)). assert (Fp' : Finite3 p') by (intros i; apply (Hp i)).
  pose proof (Affine4_w m p Haf Fp) as W. pose proof (Affine4_w m' p' Haf' Fp') as W'. assert (Hq : Prescaled3 (emax f / 4) k p p') by exact Hp. pose proof (Hp D3X) as PX. pose proof (Hq D3X) as QX. leaf PX. leaf QX. pose proof (Hp D3Y) as PY. pose proof (Hq D3Y) as QY. leaf PY. leaf QY. pose proof (Hp D3Z) as PZ. pose proof (Hq D3Z) as QZ. leaf PZ. leaf QZ.
  destruct d; cbn [coord3 m4_mul_point p3_new p3x p3y p3z v3x v3y v3z] in *; rewrite ?Q0, ?Q1, ?Q2, ?Q4, ?Q5, ?Q6, ?Q8, ?Q9, ?Q10; apply times_l;
    (eapply SC_times, SC_div1; [eapply SC_add; [sc_t; arith0 f | apply SC_l; eassumption | arith0 f | arith0 f] | exact W | exact W']).
Qed.
