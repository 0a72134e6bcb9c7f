(** Proofs: matrices of small integers are inverted without error up to the final division. *)
From Coq Require Import Bool NArith ZArith Reals List Lra Lia.
From Flocq Require Import Core.Zaux Core.Raux Core.Defs Core.Generic_fmt Core.FLT IEEE754.BinarySingleNaN.
From Flocq Require Import Relative.
From Verif Require Import Scalar Types Vector2 Vector3 Point2 Point3 Ray BoundingBox2 BoundingBox3 Transform2 Transform3 Float
  XReal OrdLaws Arith SpecOrder SpecStruct SpecFloat SpecReal SpecErr Adj4 ExactMat FloatX XArith FloatLaws FloatTrans ErrBase FloatErr.
Import ListNotations.
Local Open Scope R_scope.
Section I.
Context {f : format} {P : platform f}.
Notation A := (IEEE f P).
Notation K := (2 ^ prec f)%Z.
(* an integer of magnitude at most b *)
Definition IS (x : num A) (r : R) (b : Z) : Prop := tx x = Fin r /\ (exists n, r = IZR n) /\ Rabs r <= IZR b.
Lemma K_bpow : IZR K = bpow radix2 (prec f).
Proof. destruct f; cbn; reflexivity. Qed.
Lemma int_fix n : (Z.abs n < K)%Z -> xr A (Fin (IZR n)) = Fin (IZR n).
Proof.
  intros H. cbn [xr]. apply xround_repr.
  - apply generic_format_FLT. exists (Float radix2 n 0); [unfold F2R; cbn; ring | exact H | unfold femin; destruct f; cbn; lia].
  - rewrite <- abs_IZR. apply Rlt_trans with (IZR K); [now apply IZR_lt|]. rewrite K_bpow. apply bpow_lt. destruct f; cbn; lia.
Qed.
Lemma IS_intro (x : num A) (y : xreal) r b : tx x = xr A y -> y = Fin r -> (exists n, r = IZR n) -> Rabs r <= IZR b -> (b < K)%Z -> IS x r b.
Proof.
  intros E -> [n ->] B L. split; [|split; [eauto | assumption]]. rewrite E. apply int_fix. rewrite <- abs_IZR in B. apply le_IZR in B. lia.
Qed.
Lemma IS_add x y r s b c : IS x r b -> IS y s c -> (b + c < K)%Z -> IS (sadd x y) (r + s) (b + c).
Proof.
  intros (E1 & [n ->] & B1) (E2 & [m ->] & B2) L. apply IS_intro with (xadd (tx x) (tx y)); [apply tx_add | now rewrite E1, E2 | exists (n + m)%Z; now rewrite plus_IZR | | assumption].
  rewrite plus_IZR. eapply Rle_trans; [apply Rabs_triang|]. lra.
Qed.
Lemma IS_sub x y r s b c : IS x r b -> IS y s c -> (b + c < K)%Z -> IS (ssub x y) (r - s) (b + c).
Proof.
  intros (E1 & [n ->] & B1) (E2 & [m ->] & B2) L. apply IS_intro with (xsub (tx x) (tx y)); [apply tx_sub | now rewrite E1, E2 | exists (n - m)%Z; now rewrite minus_IZR | | assumption].
  rewrite plus_IZR. eapply Rle_trans; [apply Rabs_triang|]. rewrite Rabs_Ropp. lra.
Qed.
Lemma IS_mul x y r s b c : IS x r b -> IS y s c -> (b * c < K)%Z -> IS (smul x y) (r * s) (b * c).
Proof.
  intros (E1 & [n ->] & B1) (E2 & [m ->] & B2) L. apply IS_intro with (xmul (tx x) (tx y)); [apply tx_mul | now rewrite E1, E2 | exists (n * m)%Z; now rewrite mult_IZR | | assumption].
  rewrite mult_IZR, Rabs_mult. apply Rmult_le_compat; try apply Rabs_pos; assumption.
Qed.
Lemma IS_1 : IS sone 1 1.
Proof. split; [apply tx_1|]. split; [now exists 1%Z|]. rewrite Rabs_R1. apply Rle_refl. Qed.
Lemma IS_m1 : IS (sneg sone) (- (1)) 1.
Proof. split; [rewrite tx_neg, tx_1; reflexivity|]. split; [exists (-1)%Z; lra|]. rewrite Rabs_Ropp, Rabs_R1. apply Rle_refl. Qed.
Lemma IS_div x y r s b c : IS x r b -> IS y s c -> (b < K)%Z -> (c < K)%Z -> s <> 0 ->
  Finite (sdiv x y) /\ Rabs (real_of (sdiv x y) - r / s) <= unit_roundoff A * Rabs (r / s).
Proof.
  intros (E1 & [n ->] & B1) (E2 & [m ->] & B2) L1 L2 S. pose proof (K_bpow) as KB.
  assert (Mm : 1 <= Rabs (IZR m) < IZR K).
  { rewrite <- abs_IZR in *. apply le_IZR in B2. split; [apply IZR_le | apply IZR_lt; lia]. assert (m <> 0)%Z by (intros ->; now apply S). lia. }
  assert (Nn : Rabs (IZR n) < IZR K). { rewrite <- abs_IZR in *. apply le_IZR in B1. apply IZR_lt. lia. }
  assert (Q : tx (sdiv x y) = xr A (Fin (IZR n / IZR m))).
  { rewrite tx_div by (rewrite E2; congruence). rewrite E1, E2. cbn [xdiv]. now rewrite Req_bool_false. }
  assert (B : Rabs (IZR n / IZR m) <= IZR K).
  { unfold Rdiv. rewrite Rabs_mult, Rabs_inv. apply Rmult_le_reg_r with (Rabs (IZR m)); [lra|]. rewrite Rmult_assoc, Rinv_l by lra. nra. }
  assert (G : repr f (IZR K) /\ IZR K < fmax_bound f).
  { rewrite KB. split; [apply generic_format_bpow; unfold fexp_f, FLT_exp, femin; destruct f; cbn; lia | apply bpow_lt; destruct f; cbn; lia]. }
  assert (Fn : xr A (Fin (IZR n / IZR m)) = Fin (rnd f (IZR n / IZR m))).
  { cbn [xr]. apply Rabs_le_inv in B. pose proof (rnd_mono f _ _ (proj2 B)) as M1. pose proof (rnd_mono f _ _ (proj1 B)) as M2. rewrite rnd_opp in M2. rewrite (rnd_repr f _ (proj1 G)) in M1, M2.
    destruct (xround_cases f (IZR n / IZR m)); [reflexivity | lra | lra]. }
  rewrite Fn in Q. destruct (Finite_intro _ _ Q) as [F ->]. split; [assumption|].
  destruct (Z.eq_dec n 0) as [->|Hn]. { unfold Rdiv. rewrite Rmult_0_l, rnd_0, Rminus_0_r, Rabs_R0. lra. }
  assert (Lo : bpow radix2 (femin f + prec f - 1) <= Rabs (IZR n / IZR m)).
  { apply Rle_trans with (/ IZR K).
    - rewrite KB, <- bpow_opp. apply bpow_le. unfold femin. destruct f; cbn; lia.
    - unfold Rdiv. rewrite Rabs_mult, Rabs_inv. assert (1 <= Rabs (IZR n)) by (rewrite <- abs_IZR; apply IZR_le; lia).
      apply Rle_trans with (1 * / Rabs (IZR m)); [rewrite Rmult_1_l; apply Rinv_le; lra|]. apply Rmult_le_compat_r; [left; apply Rinv_0_lt_compat; lra | assumption]. }
  destruct (relative_error_N_FLT_ex radix2 (femin f) (prec f) (prec_gt_0 f) (fun c => negb (Z.even c)) _ Lo) as (d & Hd & V).
  change (rnd f (IZR n / IZR m) = IZR n / IZR m * (1 + d)) in V. rewrite V.
  replace (IZR n / IZR m * (1 + d) - IZR n / IZR m) with (d * (IZR n / IZR m)) by ring. rewrite Rabs_mult. apply Rmult_le_compat_r; [apply Rabs_pos|].
  cbn [unit_roundoff]. replace (bpow radix2 (- prec f)) with (/ 2 * bpow radix2 (- prec f + 1)) by (rewrite bpow_plus; cbn; field). exact Hd.
Qed.
Lemma IS_zero x r b : IS x r b -> seq x szero = Req_bool r 0.
Proof.
  intros (E & _). rewrite tx_eq, E, tx_0. unfold xeq. cbn [xle].
  destruct (Req_bool_spec r 0) as [->|N]; [now rewrite Rle_bool_true by lra|].
  destruct (Rle_bool_spec r 0), (Rle_bool_spec 0 r); try reflexivity. lra.
Qed.
Lemma IS_leaf (x : num A) B : Finite x -> (exists n, real_of x = IZR n /\ (Z.abs n <= B)%Z) -> IS x (real_of x) B.
Proof. intros F (n & E & L). split; [now apply Finite_real|]. split; [eauto|]. rewrite E, <- abs_IZR. now apply IZR_le. Qed.
End I.
Ltac is_t := lazymatch goal with
  | |- IS (sadd _ _) _ _ => eapply IS_add; [is_t | is_t | lia]
  | |- IS (ssub _ _) _ _ => eapply IS_sub; [is_t | is_t | lia]
  | |- IS (smul _ _) _ _ => eapply IS_mul; [is_t | is_t | lia]
  | |- IS sone _ _ => exact IS_1
  | |- IS (sneg sone) _ _ => exact IS_m1
  | |- _ => eassumption
  end.
Lemma C39_small_integers_3x3_pf : forall (f : format) (P : platform f) (m : Matrix3x3 (num (IEEE f P))) (B : Z), (6 * (B * B * B) < 2 ^ prec f)%Z ->
  Forall (fun x => Finite x /\ exists n, real_of x = IZR n /\ (Z.abs n <= B)%Z) (m3_comps m) ->
  let M := ent3 (RM3 m) in
  (mat_det 3 M = 0 -> m3_inverse m = Err) /\
  (mat_det 3 M <> 0 -> exists (i : Matrix3x3 (num (IEEE f P))) (N : matrix), m3_inverse m = Ok i /\ MFinite3 i /\
     mat_eq 3 (mat_mul 3 M N) mat_id /\ mat_eq 3 (mat_mul 3 N M) mat_id /\
     forall r c, (r < 3)%nat -> (c < 3)%nat -> Rabs (ent3 (RM3 i) r c - N r c) <= unit_roundoff (IEEE f P) * Rabs (N r c)).
Proof.
  intros f P [a0 a1 a2 a3 a4 a5 a6 a7 a8] B HB H M. unfold m3_comps in H. cbn [m3_0 m3_1 m3_2 m3_3 m3_4 m3_5 m3_6 m3_7 m3_8] in H.
  repeat match goal with H : Forall _ (_ :: _) |- _ => let F := fresh "F" in let H' := fresh "H" in let I := fresh "I" in
    inversion H as [|? ? F H']; subst; clear H; rename H' into H; pose proof (IS_leaf _ B (proj1 F) (proj2 F)) as I; clear F end.
  assert (B0 : (0 <= B)%Z) by (destruct I as (_ & _ & Q); apply le_IZR; eapply Rle_trans; [apply Rabs_pos | exact Q]).
  assert (B1 : (B <= B * B)%Z) by nia. assert (B2 : (B * B <= B * B * B)%Z) by nia. set (K := (2 ^ prec f)%Z) in *.
  set (m := mkM3 a0 a1 a2 a3 a4 a5 a6 a7 a8).
  assert (D : IS (m3_det m) (mat_det 3 M) (6 * (B * B * B))).
  { pose proof (rdet3 (RM3 m)) as Q. fold M in Q. eassert (Z : IS (m3_det m) _ _) by (unfold m3_det, m; cbn [m3_0 m3_1 m3_2 m3_3 m3_4 m3_5 m3_6 m3_7 m3_8]; is_t).
    destruct Z as (E & I' & Bd). match type of E with _ = Fin ?e => assert (X : mat_det 3 M = e) end.
    { match type of E with _ = Fin ?e => assert (X : Fin (mat_det 3 M) = Fin e) by (symmetry; exact Q) end. congruence. }
    rewrite X. split; [exact E|]. split; [exact I'|]. eapply Rle_trans; [exact Bd|]. apply IZR_le. lia. }
  unfold m3_inverse. fold m. rewrite (IS_zero _ _ _ D). split.
  - intros Z. rewrite Req_bool_true by assumption. reflexivity.
  - intros Z. rewrite Req_bool_false by assumption. cbn [negb]. eexists. exists (ent3 (Rinv3 (RM3 m))). split; [reflexivity|].
    destruct (Rinv3_mul (RM3 m) Z) as [M1 M2].
    assert (Q : forall x r b, IS x r b -> (b < K)%Z -> Finite (sdiv x (m3_det m)) /\ Rabs (real_of (sdiv x (m3_det m)) - r / mat_det 3 M) <= unit_roundoff (IEEE f P) * Rabs (r / mat_det 3 M)).
    { intros x r b I' L. apply (IS_div x (m3_det m) r _ b _ I' D); [assumption | lia | assumption]. }
    split; [|split; [now apply id_mul3_iff | split; [now apply id_mul3_iff|]]].
    + unfold MFinite3. repeat constructor; cbn [m3_new m3_0 m3_1 m3_2 m3_3 m3_4 m3_5 m3_6 m3_7 m3_8]; (eapply Q; [is_t | lia]).
    + intros r c Hr Hc. assert (r = 0 \/ r = 1 \/ r = 2)%nat as Kr by lia. assert (c = 0 \/ c = 1 \/ c = 2)%nat as Kc by lia.
      destruct Kr as [->|[->| ->]], Kc as [->|[->| ->]]; unfold ent3, RM3, Rinv3; cbn [nth Nat.add Nat.mul m3_new m3_0 m3_1 m3_2 m3_3 m3_4 m3_5 m3_6 m3_7 m3_8]; (eapply Q; [is_t | lia]).
Qed.
Ltac is_t4 B T := lazymatch goal with
  | |- IS (smul (smul _ _) _) _ _ => match goal with TR : (forall x y z a b c, IS x a B -> IS y b B -> IS z c B -> _) |- _ => eapply TR; eassumption end
  | |- IS (sadd _ _) _ _ => eapply IS_add; [is_t4 B T | is_t4 B T | lia]
  | |- IS (ssub _ _) _ _ => eapply IS_sub; [is_t4 B T | is_t4 B T | lia]
  | |- IS (smul sone _) _ _ => eapply IS_mul; [exact IS_1 | is_t4 B T | lia]
  | |- IS (smul (sneg sone) _) _ _ => eapply IS_mul; [exact IS_m1 | is_t4 B T | lia]
  end.
Lemma C39_small_integers_4x4_pf : forall (f : format) (P : platform f) (prof : profile) (m : Matrix4x4 (num (IEEE f P))) (B : Z), (24 * (B * B * B * B) < 2 ^ prec f)%Z ->
  Forall (fun x => Finite x /\ exists n, real_of x = IZR n /\ (Z.abs n <= B)%Z) (m4_comps m) ->
  let M := ent4 (RM4 m) in
  (mat_det 4 M = 0 -> m4_inverse prof m = Ret Err) /\
  (mat_det 4 M <> 0 -> exists (i : Matrix4x4 (num (IEEE f P))) (N : matrix), m4_inverse prof m = Ret (Ok i) /\ MFinite4 i /\
     mat_eq 4 (mat_mul 4 M N) mat_id /\ mat_eq 4 (mat_mul 4 N M) mat_id /\
     forall r c, (r < 4)%nat -> (c < 4)%nat -> Rabs (ent4 (RM4 i) r c - N r c) <= unit_roundoff (IEEE f P) * Rabs (N r c)).
Proof.
  intros f P prof [a0 a1 a2 a3 a4 a5 a6 a7 a8 a9 a10 a11 a12 a13 a14 a15] B HB H M. unfold m4_comps in H. cbn [m4_0 m4_1 m4_2 m4_3 m4_4 m4_5 m4_6 m4_7 m4_8 m4_9 m4_10 m4_11 m4_12 m4_13 m4_14 m4_15] in H.
  repeat match goal with H : Forall _ (_ :: _) |- _ => let F := fresh "F" in let H' := fresh "H" in let I := fresh "I" in
    inversion H as [|? ? F H']; subst; clear H; rename H' into H; pose proof (IS_leaf _ B (proj1 F) (proj2 F)) as I; clear F end.
  clear H.
  assert (B0 : (0 <= B)%Z) by (destruct I as (_ & _ & Q); apply le_IZR; eapply Rle_trans; [apply Rabs_pos | exact Q]).
  remember (B * B * B)%Z as T eqn:HT. assert (HTB : (T = 0 \/ B * T >= T)%Z) by (destruct (Z.eq_dec B 0); [subst; left; reflexivity | right; nia]).
  assert (HBT : (B <= T)%Z) by nia. assert (HTB' : (T <= T * B)%Z) by nia. assert (HB2 : (B * B <= T)%Z) by nia. set (K := (2 ^ prec f)%Z) in *.
  assert (TR : forall (x y z : num (IEEE f P)) a b c, IS x a B -> IS y b B -> IS z c B -> IS (smul (smul x y) z) (a * b * c) T).
  { intros x y z a b c X Y Z. rewrite HT. apply IS_mul; [apply IS_mul; [assumption | assumption | fold K; lia] | assumption | fold K; lia]. }
  set (m := mkM4 a0 a1 a2 a3 a4 a5 a6 a7 a8 a9 a10 a11 a12 a13 a14 a15) in *.
  assert (BB : forall (x : num (IEEE f P)) r b c, IS x r b -> (b <= c)%Z -> IS x r c).
  { intros x r b c (X1 & X2 & X3) L. split; [assumption|]. split; [assumption|]. eapply Rle_trans; [exact X3 | now apply IZR_le]. }
  assert (J0 : IS (m4_0 (adj4 m)) (m4_0 (adj4 (O := R_ops) (RM4 m))) (6 * T)) by (eapply BB; [unfold adj4, m; cbn [m4_0 m4_1 m4_2 m4_3 m4_4 m4_5 m4_6 m4_7 m4_8 m4_9 m4_10 m4_11 m4_12 m4_13 m4_14 m4_15]; is_t4 B T | lia]).
  assert (J1 : IS (m4_1 (adj4 m)) (m4_1 (adj4 (O := R_ops) (RM4 m))) (6 * T)) by (eapply BB; [unfold adj4, m; cbn [m4_0 m4_1 m4_2 m4_3 m4_4 m4_5 m4_6 m4_7 m4_8 m4_9 m4_10 m4_11 m4_12 m4_13 m4_14 m4_15]; is_t4 B T | lia]).
  assert (J2 : IS (m4_2 (adj4 m)) (m4_2 (adj4 (O := R_ops) (RM4 m))) (6 * T)) by (eapply BB; [unfold adj4, m; cbn [m4_0 m4_1 m4_2 m4_3 m4_4 m4_5 m4_6 m4_7 m4_8 m4_9 m4_10 m4_11 m4_12 m4_13 m4_14 m4_15]; is_t4 B T | lia]).
  assert (J3 : IS (m4_3 (adj4 m)) (m4_3 (adj4 (O := R_ops) (RM4 m))) (6 * T)) by (eapply BB; [unfold adj4, m; cbn [m4_0 m4_1 m4_2 m4_3 m4_4 m4_5 m4_6 m4_7 m4_8 m4_9 m4_10 m4_11 m4_12 m4_13 m4_14 m4_15]; is_t4 B T | lia]).
  assert (J4 : IS (m4_4 (adj4 m)) (m4_4 (adj4 (O := R_ops) (RM4 m))) (6 * T)) by (eapply BB; [unfold adj4, m; cbn [m4_0 m4_1 m4_2 m4_3 m4_4 m4_5 m4_6 m4_7 m4_8 m4_9 m4_10 m4_11 m4_12 m4_13 m4_14 m4_15]; is_t4 B T | lia]).
  assert (J5 : IS (m4_5 (adj4 m)) (m4_5 (adj4 (O := R_ops) (RM4 m))) (6 * T)) by (eapply BB; [unfold adj4, m; cbn [m4_0 m4_1 m4_2 m4_3 m4_4 m4_5 m4_6 m4_7 m4_8 m4_9 m4_10 m4_11 m4_12 m4_13 m4_14 m4_15]; is_t4 B T | lia]).
  assert (J6 : IS (m4_6 (adj4 m)) (m4_6 (adj4 (O := R_ops) (RM4 m))) (6 * T)) by (eapply BB; [unfold adj4, m; cbn [m4_0 m4_1 m4_2 m4_3 m4_4 m4_5 m4_6 m4_7 m4_8 m4_9 m4_10 m4_11 m4_12 m4_13 m4_14 m4_15]; is_t4 B T | lia]).
  assert (J7 : IS (m4_7 (adj4 m)) (m4_7 (adj4 (O := R_ops) (RM4 m))) (6 * T)) by (eapply BB; [unfold adj4, m; cbn [m4_0 m4_1 m4_2 m4_3 m4_4 m4_5 m4_6 m4_7 m4_8 m4_9 m4_10 m4_11 m4_12 m4_13 m4_14 m4_15]; is_t4 B T | lia]).
  assert (J8 : IS (m4_8 (adj4 m)) (m4_8 (adj4 (O := R_ops) (RM4 m))) (6 * T)) by (eapply BB; [unfold adj4, m; cbn [m4_0 m4_1 m4_2 m4_3 m4_4 m4_5 m4_6 m4_7 m4_8 m4_9 m4_10 m4_11 m4_12 m4_13 m4_14 m4_15]; is_t4 B T | lia]).
  assert (J9 : IS (m4_9 (adj4 m)) (m4_9 (adj4 (O := R_ops) (RM4 m))) (6 * T)) by (eapply BB; [unfold adj4, m; cbn [m4_0 m4_1 m4_2 m4_3 m4_4 m4_5 m4_6 m4_7 m4_8 m4_9 m4_10 m4_11 m4_12 m4_13 m4_14 m4_15]; is_t4 B T | lia]).
  assert (J10 : IS (m4_10 (adj4 m)) (m4_10 (adj4 (O := R_ops) (RM4 m))) (6 * T)) by (eapply BB; [unfold adj4, m; cbn [m4_0 m4_1 m4_2 m4_3 m4_4 m4_5 m4_6 m4_7 m4_8 m4_9 m4_10 m4_11 m4_12 m4_13 m4_14 m4_15]; is_t4 B T | lia]).
  assert (J11 : IS (m4_11 (adj4 m)) (m4_11 (adj4 (O := R_ops) (RM4 m))) (6 * T)) by (eapply BB; [unfold adj4, m; cbn [m4_0 m4_1 m4_2 m4_3 m4_4 m4_5 m4_6 m4_7 m4_8 m4_9 m4_10 m4_11 m4_12 m4_13 m4_14 m4_15]; is_t4 B T | lia]).
  assert (J12 : IS (m4_12 (adj4 m)) (m4_12 (adj4 (O := R_ops) (RM4 m))) (6 * T)) by (eapply BB; [unfold adj4, m; cbn [m4_0 m4_1 m4_2 m4_3 m4_4 m4_5 m4_6 m4_7 m4_8 m4_9 m4_10 m4_11 m4_12 m4_13 m4_14 m4_15]; is_t4 B T | lia]).
  assert (J13 : IS (m4_13 (adj4 m)) (m4_13 (adj4 (O := R_ops) (RM4 m))) (6 * T)) by (eapply BB; [unfold adj4, m; cbn [m4_0 m4_1 m4_2 m4_3 m4_4 m4_5 m4_6 m4_7 m4_8 m4_9 m4_10 m4_11 m4_12 m4_13 m4_14 m4_15]; is_t4 B T | lia]).
  assert (J14 : IS (m4_14 (adj4 m)) (m4_14 (adj4 (O := R_ops) (RM4 m))) (6 * T)) by (eapply BB; [unfold adj4, m; cbn [m4_0 m4_1 m4_2 m4_3 m4_4 m4_5 m4_6 m4_7 m4_8 m4_9 m4_10 m4_11 m4_12 m4_13 m4_14 m4_15]; is_t4 B T | lia]).
  assert (J15 : IS (m4_15 (adj4 m)) (m4_15 (adj4 (O := R_ops) (RM4 m))) (6 * T)) by (eapply BB; [unfold adj4, m; cbn [m4_0 m4_1 m4_2 m4_3 m4_4 m4_5 m4_6 m4_7 m4_8 m4_9 m4_10 m4_11 m4_12 m4_13 m4_14 m4_15]; is_t4 B T | lia]).
  assert (D : IS (det4 m) (mat_det 4 M) (24 * (T * B))).
  { assert (Q : IS (det4 m) (det4 (O := R_ops) (RM4 m)) (B * (6 * T) + B * (6 * T) + B * (6 * T) + B * (6 * T))).
    { unfold det4. repeat (apply IS_add; [| |fold K; lia]); (apply IS_mul; [assumption | assumption | fold K; lia]). }
    assert (X : mat_det 4 M = det4 (O := R_ops) (RM4 m)).
    { pose proof (rdet4 (RM4 m)) as Q'. fold M in Q'. assert (X : Fin (mat_det 4 M) = Fin (det4 (O := R_ops) (RM4 m))) by (symmetry; exact Q'). congruence. }
    rewrite X. eapply BB; [exact Q | lia]. }
  rewrite m4_inverse_closed. rewrite (IS_zero _ _ _ D). split.
  - intros Z. rewrite Req_bool_true by assumption. reflexivity.
  - intros Z. rewrite Req_bool_false by assumption. cbn [negb]. eexists. exists (ent4 (Rinv4 (RM4 m))). split; [reflexivity|].
    destruct (Rinv4_mul (RM4 m) Z) as [M1 M2].
    assert (Q : forall x r, IS x r (6 * T) -> Finite (sdiv x (det4 m)) /\ Rabs (real_of (sdiv x (det4 m)) - r / mat_det 4 M) <= unit_roundoff (IEEE f P) * Rabs (r / mat_det 4 M)).
    { intros x r I'. apply (IS_div x (det4 m) r _ (6 * T) _ I' D); [fold K; lia | fold K; lia | assumption]. }
    split; [|split; [now apply id_mul4_iff | split; [now apply id_mul4_iff|]]].
    + unfold MFinite4, m4_divs. repeat constructor; cbn [m4_new m4_0 m4_1 m4_2 m4_3 m4_4 m4_5 m4_6 m4_7 m4_8 m4_9 m4_10 m4_11 m4_12 m4_13 m4_14 m4_15]; (eapply Q; eassumption).
    + unfold m4_divs, Rinv4, RM4 at 1. intros r c Hr Hc. assert (r = 0 \/ r = 1 \/ r = 2 \/ r = 3)%nat as Kr by lia. assert (c = 0 \/ c = 1 \/ c = 2 \/ c = 3)%nat as Kc by lia.
      destruct Kr as [->|[->|[->| ->]]], Kc as [->|[->|[->| ->]]]; unfold ent4 at 1; unfold ent4 at 1; cbn [nth Nat.add Nat.mul m4_new m4_0 m4_1 m4_2 m4_3 m4_4 m4_5 m4_6 m4_7 m4_8 m4_9 m4_10 m4_11 m4_12 m4_13 m4_14 m4_15]; apply Q; assumption.
Qed.
Section D.
Context {A : arith}.
Notation u := (unit_roundoff A).
Notation t := (min_subnormal A).
Lemma Apx_tri (x y z : num A) B : Finite (smul (smul x y) z) -> Rabs (real_of z) <= B ->
  Apx (smul (smul x y) z) (real_of x * real_of y * real_of z) (Rabs (real_of x) * Rabs (real_of y) * Rabs (real_of z)) 2 (t / 2 * (B + 1)).
Proof.
  intros F L. pose proof (t_pos (A:=A)) as T. apply Apx_weaken with 2%nat (t / 2 * Rabs (real_of z) + 0 * (Rabs (real_of x) * Rabs (real_of y)) + t / 2 * 0 + t / 2); [|lia|].
  - apply (Apx_mul _ z _ _ _ _ 1 0 (t / 2) 0 F); [apply Apx_mul1 | apply Apx_leaf].
  - assert (t / 2 * Rabs (real_of z) <= t / 2 * B) by (apply Rmult_le_compat_l; lra). lra.
Qed.
Lemma Apx_six (x1 x2 x3 x4 x5 x6 : num A) r1 r2 r3 r4 r5 r6 m1 m2 m3 m4 m5 m6 n e :
  let s := ssub (ssub (ssub (sadd (sadd x1 x2) x3) x4) x5) x6 in Finite s ->
  (Finite x1 -> Apx x1 r1 m1 n e) -> (Finite x2 -> Apx x2 r2 m2 n e) -> (Finite x3 -> Apx x3 r3 m3 n e) ->
  (Finite x4 -> Apx x4 r4 m4 n e) -> (Finite x5 -> Apx x5 r5 m5 n e) -> (Finite x6 -> Apx x6 r6 m6 n e) ->
  Apx s (r1 + r2 + r3 - r4 - r5 - r6) (m1 + m2 + m3 + m4 + m5 + m6) (S (S (S (S (S n))))) (6 * e).
Proof.
  intros s F H1 H2 H3 H4 H5 H6. replace (6 * e) with (e + e + e + e + e + e) by ring.
  assert (W : forall (x : num A) r m k, (Finite x -> Apx x r m n e) -> Finite x -> Apx x r m (k + n) e) by (intros x r m k H Fx; apply Apx_weaken with n e; [auto | lia | lra]).
  unfold s. apply Apx_sub; [assumption | intros F1 | now apply (W _ _ _ 4%nat)].
  apply Apx_sub; [assumption | intros F2 | now apply (W _ _ _ 3%nat)].
  apply Apx_sub; [assumption | intros F3 | now apply (W _ _ _ 2%nat)].
  apply Apx_add; [assumption | intros F4 | now apply (W _ _ _ 1%nat)].
  apply Apx_add; assumption.
Qed.
Lemma G_small' n : (n <= 16)%nat -> (1 + u) ^ n <= 2.
Proof.
  intros H. pose proof (u_pos (A:=A)) as U. apply Rle_trans with ((1 + u) ^ 16); [apply Rle_pow; [lra|assumption]|].
  apply Rle_trans with ((1 + / 16777216) ^ 16); [apply pow_incr; lra | cbn; lra].
Qed.
Lemma Apx_bound' (x : num A) r m n e k : (n <= 16)%nat -> Apx x r m n e -> 2 * e <= k -> Rabs (real_of x - r) <= ((1 + u) ^ n - 1) * m + k.
Proof.
  intros N (_ & E & _ & P) K. eapply Rle_trans; [exact E|]. apply Rplus_le_compat_l. pose proof (G_small' n N). pose proof (@G_ge1 A n).
  apply Rle_trans with (e * 2); [apply Rmult_le_compat_l|]; lra.
Qed.
Lemma xr_txx (x : num A) : xr A (tx x) = tx x.
Proof. apply xr_tx. Qed.
Lemma tx_mul_1 (x : num A) : tx (smul sone x) = tx x.
Proof.
  rewrite tx_mul, tx_1. rewrite <- (xr_txx x) at 2. f_equal.
  destruct (tx x); cbn [xmul]; [f_equal; ring|..]; unfold xsigned_inf; rewrite ?Rlt_bool_true by lra; reflexivity.
Qed.
Lemma tx_mul_m1 (x : num A) : tx (smul (sneg sone) x) = tx (sneg x).
Proof.
  rewrite tx_mul, !tx_neg, tx_1. rewrite <- (xr_txx x) at 2. rewrite <- xr_neg. f_equal. unfold xneg.
  destruct (tx x); cbn [xmul]; [f_equal; ring|..]; unfold xsigned_inf; rewrite ?Rlt_bool_false by lra; rewrite ?Rlt_bool_true by lra; reflexivity.
Qed.
Lemma Apx_by1 (x : num A) r m n e : Finite (smul sone x) -> (Finite x -> Apx x r m n e) -> Apx (smul sone x) (1 * r) m n e.
Proof. intros F H. rewrite Rmult_1_l. apply Apx_eq with x; [apply tx_mul_1|]. apply H. exact (proj1 (proj1 (real_of_eq _ _ (tx_mul_1 x))) F). Qed.
Lemma Apx_bym1 (x : num A) r m n e : Finite (smul (sneg sone) x) -> (Finite x -> Apx x r m n e) -> Apx (smul (sneg sone) x) (- (1) * r) m n e.
Proof. intros F H. replace (- (1) * r) with (- r) by ring. apply Apx_eq with (sneg x); [apply tx_mul_m1|]. apply Apx_neg, H. apply (proj1 (proj1 (real_of_eq _ _ (tx_mul_m1 x)))) in F. now apply Finite_neg_inv. Qed.
End D.
Lemma zero_det {A : arith} (x : num A) : negb (seq x szero) = false -> Finite x /\ real_of x = 0.
Proof.
  intros H. apply negb_false_iff in H. assert (E : Eqs x szero) by exact H. apply Eqs_tx in E. rewrite tx_0 in E. apply Finite_intro. tauto.
Qed.
Lemma C39_err_means_nearly_singular_3x3_pf : forall (A : arith) (m : Matrix3x3 (num A)) (B : R), Forall (fun x => Rabs (real_of x) <= B) (m3_comps m) -> m3_inverse m = Err ->
  let M := ent3 (RM3 m) in
  MFinite3 m /\ Rabs (mat_det 3 M) <= ((1 + unit_roundoff A) ^ 7 - 1) * mat_perm 3 (mat_abs M) + 6 * min_subnormal A * (B + 1).
Proof.
  intros A [a0 a1 a2 a3 a4 a5 a6 a7 a8] B H I M. set (m := mkM3 a0 a1 a2 a3 a4 a5 a6 a7 a8) in *.
  assert (Z : negb (seq (m3_det m) szero) = false) by (unfold m3_inverse in I; destruct (negb (seq (m3_det m) szero)); [discriminate | reflexivity]).
  apply zero_det in Z. destruct Z as [F Z]. unfold m3_comps in H. cbn [m m3_0 m3_1 m3_2 m3_3 m3_4 m3_5 m3_6 m3_7 m3_8] in H.
  repeat match goal with H : Forall _ (_ :: _) |- _ => let F := fresh "L" in let H' := fresh "H" in inversion H as [|? ? F H']; subst; clear H; rename H' into H end. clear H.
  split.
  - unfold m3_det, m in F. cbn [m3_0 m3_1 m3_2 m3_3 m3_4 m3_5 m3_6 m3_7 m3_8] in F.
    repeat match goal with
      | H : Finite (sadd _ _) |- _ => apply err_add in H; destruct H as (? & ? & _)
      | H : Finite (ssub _ _) |- _ => apply err_sub in H; destruct H as (? & ? & _)
      | H : Finite (smul _ _) |- _ => apply err_mul in H; destruct H as (? & ? & _)
      end.
    unfold MFinite3, m3_comps, m. cbn [m3_0 m3_1 m3_2 m3_3 m3_4 m3_5 m3_6 m3_7 m3_8]. repeat constructor; assumption.
  - assert (Q : Apx (m3_det m) (mat_det 3 M) (mat_perm 3 (mat_abs M)) 7 (6 * (min_subnormal A / 2 * (B + 1)))).
    { assert (E : forall (x : num A) r r' k k' n e, Apx x r k n e -> r = r' -> k = k' -> Apx x r' k' n e) by (intros; subst; assumption).
      eapply (E (m3_det m)); [unfold m3_det; eapply Apx_six with (n := 2%nat); [exact F | intros Fx; apply Apx_tri; [exact Fx | assumption] ..] | |].
      - unfold M, m, RM3. mred. ring.
      - unfold M, m, RM3, mat_abs. cbv [mat_perm mat_minor sum_n ent3 nth Nat.ltb Nat.leb Nat.mul Nat.add m3_0 m3_1 m3_2 m3_3 m3_4 m3_5 m3_6 m3_7 m3_8]. ring. }
    apply (Apx_bound' _ _ _ _ _ (6 * min_subnormal A * (B + 1))) in Q; [|lia | lra]. rewrite Z in Q. unfold Rminus in Q at 1. rewrite Rplus_0_l, Rabs_Ropp in Q. exact Q.
Qed.
Lemma Apx_cof {A : arith} (x1 y1 z1 x2 y2 z2 x3 y3 z3 x4 y4 z4 x5 y5 z5 x6 y6 z6 : num A) B :
  let s := ssub (ssub (ssub (sadd (sadd (smul (smul x1 y1) z1) (smul (smul x2 y2) z2)) (smul (smul x3 y3) z3)) (smul (smul x4 y4) z4)) (smul (smul x5 y5) z5)) (smul (smul x6 y6) z6) in
  let q (x y z : num A) := real_of x * real_of y * real_of z in let k (x y z : num A) := Rabs (real_of x) * Rabs (real_of y) * Rabs (real_of z) in
  Rabs (real_of z1) <= B -> Rabs (real_of z2) <= B -> Rabs (real_of z3) <= B -> Rabs (real_of z4) <= B -> Rabs (real_of z5) <= B -> Rabs (real_of z6) <= B -> Finite s ->
  Apx s (q x1 y1 z1 + q x2 y2 z2 + q x3 y3 z3 - q x4 y4 z4 - q x5 y5 z5 - q x6 y6 z6)
        (k x1 y1 z1 + k x2 y2 z2 + k x3 y3 z3 + k x4 y4 z4 + k x5 y5 z5 + k x6 y6 z6) 7 (6 * (min_subnormal A / 2 * (B + 1))).
Proof. intros. eapply Apx_six with (n := 2%nat); [assumption | intros Fx; apply Apx_tri; [exact Fx | assumption] ..]. Qed.
Lemma Apx_col {A : arith} (a c : num A) r k B T : Finite (smul a c) -> Rabs (real_of a) <= B -> (Finite c -> Apx c r k 7 T) -> 0 <= T ->
  Apx (smul a c) (real_of a * r) (Rabs (real_of a) * k) 8 (T * B + min_subnormal A / 2).
Proof.
  intros F L H PT. apply Apx_weaken with 8%nat (0 * k + T * Rabs (real_of a) + 0 * T + min_subnormal A / 2); [|lia|].
  - apply (Apx_mul a c _ _ _ _ 0 7 0 T F); [apply Apx_leaf | exact H].
  - assert (T * Rabs (real_of a) <= T * B) by (apply Rmult_le_compat_l; assumption). lra.
Qed.
Lemma C39_err_means_nearly_singular_4x4_pf : forall (A : arith) (prof : profile) (m : Matrix4x4 (num A)) (B : R), Forall (fun x => Rabs (real_of x) <= B) (m4_comps m) -> m4_inverse prof m = Ret Err ->
  let M := ent4 (RM4 m) in
  MFinite4 m /\ Rabs (mat_det 4 M) <= ((1 + unit_roundoff A) ^ 11 - 1) * mat_perm 4 (mat_abs M) + min_subnormal A * (24 * B * (B + 1) + 4).
Proof.
  intros A prof [a0 a1 a2 a3 a4 a5 a6 a7 a8 a9 a10 a11 a12 a13 a14 a15] B H I M. set (m := mkM4 a0 a1 a2 a3 a4 a5 a6 a7 a8 a9 a10 a11 a12 a13 a14 a15) in *.
  rewrite m4_inverse_closed in I.
  assert (Z : negb (seq (det4 m) szero) = false) by (destruct (negb (seq (det4 m) szero)); [discriminate | reflexivity]).
  apply zero_det in Z. destruct Z as [F Z]. unfold m4_comps in H. cbn [m m4_0 m4_1 m4_2 m4_3 m4_4 m4_5 m4_6 m4_7 m4_8 m4_9 m4_10 m4_11 m4_12 m4_13 m4_14 m4_15] in H.
  repeat match goal with H : Forall _ (_ :: _) |- _ => let F := fresh "L" in let H' := fresh "H" in inversion H as [|? ? F H']; subst; clear H; rename H' into H end. clear H.
  unfold det4, adj4, m in F. cbn [m4_0 m4_1 m4_2 m4_3 m4_4 m4_5 m4_6 m4_7 m4_8 m4_9 m4_10 m4_11 m4_12 m4_13 m4_14 m4_15] in F.
  split.
  - repeat match goal with
      | H : Finite (sadd _ _) |- _ => apply err_add in H; destruct H as (? & ? & _)
      | H : Finite (ssub _ _) |- _ => apply err_sub in H; destruct H as (? & ? & _)
      | H : Finite (smul _ _) |- _ => apply err_mul in H; destruct H as (? & ? & _)
      end.
    unfold MFinite4, m4_comps, m. cbn [m4_0 m4_1 m4_2 m4_3 m4_4 m4_5 m4_6 m4_7 m4_8 m4_9 m4_10 m4_11 m4_12 m4_13 m4_14 m4_15]. repeat constructor; assumption.
  - pose proof (t_pos (A:=A)) as T. assert (B0 : 0 <= B) by (eapply Rle_trans; [apply Rabs_pos | exact L]).
    set (e := 6 * (min_subnormal A / 2 * (B + 1))). assert (e0 : 0 <= e) by (unfold e; apply Rmult_le_pos; [lra | apply Rmult_le_pos; lra]).
    assert (Q : Apx (det4 m) (mat_det 4 M) (mat_perm 4 (mat_abs M)) 11 (4 * (e * B + min_subnormal A / 2))).
    { assert (E : forall (x : num A) r r' k k' n e, Apx x r k n e -> r = r' -> k = k' -> Apx x r' k' n e) by (intros; subst; assumption).
      assert (W : forall (x : num A) r m k e, (Finite x -> Apx x r m 8 e) -> Finite x -> Apx x r m (k + 8) e) by (intros x r m' k e' H Fx; apply Apx_weaken with 8%nat e'; [auto | lia | lra]).
      replace (4 * (e * B + min_subnormal A / 2)) with (e * B + min_subnormal A / 2 + (e * B + min_subnormal A / 2) + (e * B + min_subnormal A / 2) + (e * B + min_subnormal A / 2)) by ring.
      eapply (E (det4 m)); [unfold det4, adj4, m; cbn [m4_0 m4_1 m4_2 m4_3 m4_4 m4_5 m4_6 m4_7 m4_8 m4_9 m4_10 m4_11 m4_12 m4_13 m4_14 m4_15];
        apply Apx_add; [exact F | clear F; intros F; apply Apx_add; [exact F | clear F; intros F; apply Apx_add; [exact F | clear F; intros F | clear F; intros F] | clear F; apply (W _ _ _ 1%nat); intros F] | clear F; apply (W _ _ _ 2%nat); intros F];
        (eapply Apx_col; [exact F | assumption | clear F; intros F; first [apply Apx_by1 | apply Apx_bym1]; [exact F | clear F; intros F; apply Apx_cof; assumption] | assumption]) | |].
      - unfold M, m, RM4. mred. ring.
      - unfold M, m, RM4, mat_abs. cbv [mat_perm mat_minor sum_n ent4 nth Nat.ltb Nat.leb Nat.mul Nat.add m4_0 m4_1 m4_2 m4_3 m4_4 m4_5 m4_6 m4_7 m4_8 m4_9 m4_10 m4_11 m4_12 m4_13 m4_14 m4_15]. ring. }
    apply (Apx_bound' _ _ _ _ _ (min_subnormal A * (24 * B * (B + 1) + 4))) in Q; [|lia | unfold e; lra]. rewrite Z in Q. unfold Rminus in Q at 1. rewrite Rplus_0_l, Rabs_Ropp in Q. exact Q.
Qed.
Lemma real_flit (f : format) (P : platform f) (n : Z) : (Z.abs n < 2 ^ prec f)%Z -> real_of (A := IEEE f P) (flit f n 0) = IZR n.
Proof.
  intros H. assert (E : F2R (Float radix2 n 0) = IZR n) by (unfold F2R; cbn; ring).
  apply real_of_tx. change (toX (flit f n 0) = Fin (IZR n)). rewrite <- E. apply flit_repr.
  - apply generic_format_FLT. exists (Float radix2 n 0); [reflexivity | exact H | unfold femin; destruct f; cbn; lia].
  - rewrite E, <- abs_IZR. apply Rlt_trans with (IZR (2 ^ prec f)); [now apply IZR_lt|]. rewrite (K_bpow (P := P)). apply bpow_lt. destruct f; cbn; lia.
Qed.
Definition inv3 {S} {O : ScalarOps S} (m : Matrix3x3 S) : Matrix3x3 S := let det := m3_det m in
    m3_new
      (sdiv (ssub (smul (m3_4 m) (m3_8 m)) (smul (m3_5 m) (m3_7 m))) det)
      (sdiv (ssub (smul (m3_2 m) (m3_7 m)) (smul (m3_1 m) (m3_8 m))) det)
      (sdiv (ssub (smul (m3_1 m) (m3_5 m)) (smul (m3_2 m) (m3_4 m))) det)
      (sdiv (ssub (smul (m3_5 m) (m3_6 m)) (smul (m3_3 m) (m3_8 m))) det)
      (sdiv (ssub (smul (m3_0 m) (m3_8 m)) (smul (m3_2 m) (m3_6 m))) det)
      (sdiv (ssub (smul (m3_2 m) (m3_3 m)) (smul (m3_0 m) (m3_5 m))) det)
      (sdiv (ssub (smul (m3_3 m) (m3_7 m)) (smul (m3_4 m) (m3_6 m))) det)
      (sdiv (ssub (smul (m3_1 m) (m3_6 m)) (smul (m3_0 m) (m3_7 m))) det)
      (sdiv (ssub (smul (m3_0 m) (m3_4 m)) (smul (m3_1 m) (m3_3 m))) det).
Lemma inv3_ok {S} {O : ScalarOps S} (m : Matrix3x3 S) : seq (m3_det m) szero = false -> m3_inverse m = Ok (inv3 m).
Proof. intros H. unfold m3_inverse. rewrite H. reflexivity. Qed.
Lemma inv3_err {S} {O : ScalarOps S} (m : Matrix3x3 S) : seq (m3_det m) szero = true -> m3_inverse m = Err.
Proof. intros H. unfold m3_inverse. rewrite H. reflexivity. Qed.
Lemma inv4_ok {S} {O : ScalarOps S} prof (m : Matrix4x4 S) : seq (det4 m) szero = false -> m4_inverse prof m = Ret (Ok (m4_divs (adj4 m) (det4 m))).
Proof. intros H. rewrite m4_inverse_closed, H. reflexivity. Qed.
Lemma inv4_err {S} {O : ScalarOps S} prof (m : Matrix4x4 S) : seq (det4 m) szero = true -> m4_inverse prof m = Ret Err.
Proof. intros H. rewrite m4_inverse_closed, H. reflexivity. Qed.
