(** Proofs: components against lengths (C87). *)
From Coq Require Import Bool NArith ZArith Reals List Lra Lia.
From Flocq Require Import Core.Zaux Core.Raux Core.Defs Core.Generic_fmt Core.FLT Core.Ulp Core.Round_NE IEEE754.BinarySingleNaN.
From Flocq Require Import Relative.
From Verif Require Import Scalar Types Vector2 Vector3 Point2 Point3 Float
  XReal OrdLaws Arith SpecOrder SpecFloat SpecReal SpecErr OrderProofs FloatX XArith FloatLaws ErrBase FloatErr FloatInv FloatMono FloatTrans ExVals.
Import ListNotations.
Local Open Scope R_scope.
Section F.
Context (f : format).
Notation p := (prec f).
Lemma mag_bounds x : 0 < x -> bpow radix2 (mag radix2 x - 1) <= x < bpow radix2 (mag radix2 x).
Proof. intros P. destruct (mag radix2 x) as [e H]. cbn. specialize (H ltac:(lra)). rewrite Rabs_pos_eq in H by lra. exact H. Qed.
Lemma sqrt_sqr_rnd x : repr f x -> 0 < x -> bpow radix2 (femin f + p - 1) <= x * x -> rnd f (sqrt (rnd f (x * x))) = x.
Proof.
  intros R P B. pose proof (mag_bounds x P) as [M1 M2]. set (e := mag radix2 x : Z) in *.
  assert (p24 : (24 <= p)%Z) by (destruct f; cbn; lia).
  assert (emin0 : (femin f <= - p)%Z) by (unfold femin; destruct f; cbn; lia).
  (* exponent of x is in the normal range *)
  assert (EX : (femin f + p <= 2 * e)%Z).
  { assert (bpow radix2 (femin f + p - 1) < bpow radix2 (e + e)) by (rewrite bpow_plus; eapply Rle_lt_trans; [exact B|]; apply Rmult_le_0_lt_compat; lra).
    apply lt_bpow in H. lia. }
  assert (C : cexp radix2 (fexp_f f) x = (e - p)%Z).
  { unfold cexp, fexp_f, FLT_exp. fold e. apply Z.max_l. lia. }
  assert (U : ulp radix2 (fexp_f f) x = bpow radix2 (e - p)) by (rewrite ulp_neq_0 by lra; now rewrite C).
  set (b := bpow radix2 (- p)).
  assert (b0 : 0 < b) by apply bpow_gt_0.
  assert (bs : b <= / 16777216) by (replace (/ 16777216) with (bpow radix2 (-24)) by (cbn; lra); apply bpow_le; lia).
  assert (Ue : ulp radix2 (fexp_f f) x = bpow radix2 e * b) by (rewrite U; unfold b; rewrite <- bpow_plus; f_equal; lia).
  assert (ER : exists d, Rabs d <= b /\ rnd f (x * x) = x * x * (1 + d)).
  { destruct (relative_error_N_FLT_ex radix2 (femin f) p (prec_gt_0 f) (fun c : Z => negb (Z.even c)) (x * x)) as (d & D1 & D2).
    - rewrite Rabs_pos_eq by nra. exact B.
    - exists d. split; [|exact D2]. unfold b. change (/ 2 * bpow radix2 (- p + 1)) with (u_ro radix2 p) in D1. rewrite u_ro_eq in D1. exact D1. }
  destruct ER as (d & D & E). apply Rabs_le_inv in D.
  set (y := rnd f (x * x)) in *.
  apply Rle_antisym.
  - apply round_N_le_midp; auto with typeclass_instances. rewrite succ_eq_pos by lra. rewrite Ue.
    apply Rle_lt_trans with (x * (1 + b / 2)).
    + rewrite <- (sqrt_square (x * (1 + b / 2))) by nra. apply sqrt_le_1_alt. rewrite E.
      replace (x * (1 + b / 2) * (x * (1 + b / 2))) with (x * x * ((1 + b / 2) * (1 + b / 2))) by ring. apply Rmult_le_compat_l; nra.
    + nra.
  - destruct (Req_dec x (bpow radix2 (e - 1))) as [X|X].
    + assert (Y : y = x * x).
      { unfold y. apply rnd_repr. rewrite X, <- bpow_plus. apply generic_format_bpow. unfold fexp_f, FLT_exp. lia. }
      rewrite Y, sqrt_square by lra. rewrite rnd_repr by assumption. lra.
    + apply round_N_ge_midp; auto with typeclass_instances.
      assert (PR : pred radix2 (fexp_f f) x = x - bpow radix2 e * b).
      { rewrite pred_eq_pos by lra. unfold pred_pos. fold e. rewrite Req_bool_false by exact X. now rewrite Ue. }
      rewrite PR.
      assert (TOP : x + bpow radix2 e * b <= bpow radix2 e) by (rewrite <- Ue; apply id_p_ulp_le_bpow; auto with typeclass_instances).
      apply Rlt_le_trans with (x * (1 - b / 2 * (1 + b))).
      * assert (0 < b / 2 * (1 + b)) by nra. set (E' := bpow radix2 e) in *. assert (0 < E') by apply bpow_gt_0.
        assert (x <= E' * (1 - b)) by lra. assert (x * (b / 2 * (1 + b)) <= E' * (1 - b) * (b / 2 * (1 + b))) by (apply Rmult_le_compat_r; lra). 
        assert (E' * (1 - b) * (b / 2 * (1 + b)) < E' * b / 2) by (replace (E' * (1 - b) * (b / 2 * (1 + b))) with (E' * b / 2 - E' * b / 2 * (b * b)) by field; assert (0 < E' * b / 2 * (b * b)) by (repeat apply Rmult_lt_0_compat; lra); lra). lra.
      * rewrite <- (sqrt_square (x * (1 - b / 2 * (1 + b)))) by (apply Rmult_le_pos; nra). apply sqrt_le_1_alt. rewrite E.
        replace (x * (1 - b / 2 * (1 + b)) * (x * (1 - b / 2 * (1 + b)))) with (x * x * ((1 - b / 2 * (1 + b)) * (1 - b / 2 * (1 + b)))) by ring. apply Rmult_le_compat_l; [nra|]. 
        assert ((1 - b / 2 * (1 + b)) * (1 - b / 2 * (1 + b)) <= 1 - b) by (replace ((1 - b / 2 * (1 + b)) * (1 - b / 2 * (1 + b))) with (1 - b - b * b * (1 - (1 + b) * (1 + b) / 4)) by field; assert (0 <= b * b * (1 - (1 + b) * (1 + b) / 4)) by (apply Rmult_le_pos; nra); lra). lra.
Qed.
End F.

Lemma Fin_neq (a b : R) : a <> b -> Fin a <> Fin b.
Proof. congruence. Qed.
Section L.
Context {A : arith}.
Implicit Types x y s : num A.
Notation u := (unit_roundoff A).
Notation t := (min_subnormal A).
Lemma arnd_sqrt_sqr x : Finite x -> t <= 2 * u * (real_of x * real_of x) -> arnd (A:=A) (sqrt (arnd (A:=A) (real_of x * real_of x))) = Rabs (real_of x).
Proof.
  intros F. pose proof (Finite_real x F) as E. unfold arnd. revert x F E. destruct A as [f P|]; cbn [unit_roundoff min_subnormal]; intros x F E H.
  - destruct (repr_tx f P x _ E) as [Ra _]. set (r := real_of x) in *. replace (r * r) with (Rabs r * Rabs r) in * by (rewrite <- Rabs_mult, Rabs_pos_eq; nra).
    assert (B : bpow radix2 (femin f + prec f - 1) <= Rabs r * Rabs r).
    { apply Rmult_le_reg_l with (2 * bpow radix2 (- prec f)); [pose proof (bpow_gt_0 radix2 (- prec f)); lra|]. eapply Rle_trans; [|exact H].
      replace 2 with (bpow radix2 1) by (cbn; lra). rewrite <- !bpow_plus. apply bpow_le. unfold femin. lia. }
    destruct (Req_dec r 0) as [Z|Z]; [rewrite Z, Rabs_R0 in B; pose proof (bpow_gt_0 radix2 (femin f + prec f - 1)); lra|].
    apply sqrt_sqr_rnd; [now apply generic_format_abs | now apply Rabs_pos_lt | exact B].
  - rewrite <- (Rabs_pos_eq (real_of x * real_of x)) by nra. rewrite Rabs_mult. apply sqrt_square. apply Rabs_pos.
Qed.
Lemma sqrt_sq x : Finite (smul x x) -> t <= 2 * u * (real_of x * real_of x) -> Eqs (ssqrt (smul x x)) (sabs x).
Proof.
  intros F H. destruct (err_mul x x F) as (Fx & _ & _). pose proof (Finite_real x Fx) as E. pose proof (Finite_real _ F) as Em.
  rewrite tx_mul, E in Em. cbn [xmul] in Em. apply xr_fin_inv in Em. assert (N : 0 <= real_of (smul x x)).
  { pose proof (sqr_NotNeg x) as N. apply NotNeg_Le in N; [|rewrite NoNaN_tx, (Finite_real _ F); discriminate]. rewrite Le_tx, tx_0, (Finite_real _ F) in N. now apply xle_fin in N. }
  destruct (err_sqrt _ F N) as [Fs _]. pose proof (Finite_real _ Fs) as Es. rewrite Eqs_tx. rewrite Es. split; [|discriminate].
  rewrite tx_sqrt, (Finite_real _ F) in Es. cbn [xsqrt] in Es. rewrite Rlt_bool_false in Es by exact N. apply xr_fin_inv in Es. rewrite Es, Em, arnd_sqrt_sqr by assumption. rewrite tx_abs, E. reflexivity.
Qed.
Lemma range_sq x : Finite (smul x x) -> t <= u * real_of (smul x x) -> t <= 2 * u * (real_of x * real_of x).
Proof.
  intros F H. destruct (err_mul x x F) as (Fx & _ & d & e & Hd & He & V). rewrite V in H. clear V. pose proof (u_pos (A:=A)) as U. pose proof (t_pos (A:=A)) as T.
  apply Rabs_le_inv in Hd. apply Rabs_le_inv in He. set (r := real_of x * real_of x) in *. assert (0 <= r) by (unfold r; nra). 
  assert (u * (r * (1 + d) + e) <= u * (r * (1 + / 16777216) + t / 2)) by (apply Rmult_le_compat_l; [lra|]; apply Rplus_le_compat; [apply Rmult_le_compat_l; lra | lra]).
  assert (u * (t / 2) <= / 16777216 * (t / 2)) by (apply Rmult_le_compat_r; lra). assert (0 <= u * r) by (apply Rmult_le_pos; lra). lra.
Qed.
Lemma comp_le x s : Finite x -> Le (smul x x) s -> (Finite s -> t <= u * real_of s) -> Le (sabs x) (ssqrt s).
Proof.
  intros Fx L H. pose proof (Finite_real x Fx) as E. assert (N0 : Le szero (smul x x)).
  { apply (sq_nn x x). rewrite Le_tx, tx_abs, E. cbn. apply xle_fin. lra. }
  assert (D : (exists r, tx s = Fin r) \/ tx s = PInf). { rewrite !Le_tx, tx_0 in *. destruct (tx s); eauto; destruct (tx (smul x x)); discriminate. }
  destruct D as [D|D]; [|rewrite Le_tx, tx_sqrt, D, tx_abs, E; cbn [xsqrt xabs]; rewrite xr_pinf; reflexivity].
  rewrite <- Finite_tx in D. specialize (H D). pose proof (Finite_real _ D) as Es.
  assert (Fm : Finite (smul x x)). { rewrite Finite_tx. rewrite Le_tx, tx_0 in N0. rewrite Le_tx, Es in L. destruct (tx (smul x x)); try discriminate. eauto. }
  destruct (Rle_dec t (2 * u * (real_of x * real_of x))) as [C|C].
  - pose proof (sqrt_sq x Fm C) as Q. apply (Le_trans (num_OrdLaws A)) with (ssqrt (smul x x)); [|apply sqrt_mono; assumption].
    rewrite Eqs_tx in Q. destruct Q as [Q1 Q2]. rewrite Le_tx, <- Q1. destruct (tx (ssqrt (smul x x))); cbn; try reflexivity; [apply xle_fin; lra | congruence].
  - pose proof (u_pos (A:=A)) as U. assert (P : 0 < u) by (destruct (Req_dec u 0) as [Z|Z]; [rewrite Z in *; lra | lra]). set (r := real_of x) in *. set (S := real_of s) in *.
    assert (B : 2 * (r * r) <= S). { apply Rmult_le_reg_l with u; [exact P|]. lra. }
    assert (S0 : 0 <= S) by (pose proof (Rle_0_sqr r) as Q; unfold Rsqr in Q; lra). destruct (err_sqrt s D S0) as (Fq & d & Hd & V). fold S in V.
    rewrite Le_tx, tx_abs, E, (Finite_real _ Fq), V. cbn [xabs]. apply xle_fin. fold r. apply Rabs_le_inv in Hd.
    apply Rle_trans with (sqrt S * (3 / 4)); [|apply Rmult_le_compat_l; [apply sqrt_pos | lra]].
    replace (3 / 4) with (sqrt (9 / 16)) by (rewrite <- (sqrt_square (3 / 4)) by lra; f_equal; lra). rewrite <- sqrt_mult by lra. rewrite <- (sqrt_square (Rabs r)) by apply Rabs_pos.
    apply sqrt_le_1_alt. rewrite abs_sq. lra.
Qed.
Lemma div_unit x l : Finite x -> Lt szero l -> Le (sabs x) l -> Le (sneg sone) (sdiv x l) /\ Le (sdiv x l) sone.
Proof.
  intros Fx P L. pose proof (Finite_real x Fx) as E. rewrite Lt_tx, tx_0 in P. rewrite Le_tx, tx_abs, E in L. rewrite !Le_tx, tx_neg, tx_1. cbn [xneg xabs] in *.
  assert (X1 : Fin 1 = xr A (Fin 1)) by (rewrite <- (tx_1 (A:=A)); symmetry; apply xr_txx).
  assert (X2 : Fin (Ropp 1) = xr A (Fin (Ropp 1))) by (change (Fin (Ropp 1)) with (xneg (Fin 1)); rewrite xr_neg, <- X1; reflexivity).
  rewrite tx_div, E by (intros Z; rewrite Z in P; apply xlt_fin in P; lra). rewrite X1, X2.
  destruct (tx l) as [r| | |] eqn:El; cbn [xdiv xabs] in *; try discriminate.
  - apply xle_fin in L. apply xlt_fin in P. rewrite Req_bool_false by lra. apply Rabs_le_inv in L.
    assert (- 1 <= real_of x / r <= 1) by (split; apply Rmult_le_reg_r with r; try lra; unfold Rdiv; rewrite Rmult_assoc, Rinv_l; lra).
    split; apply xr_mono; apply xle_fin; lra.
  - split; apply xr_mono; apply xle_fin; lra.
Qed.
Lemma absle x : Finite x -> Le (sabs x) (sabs x).
Proof. intros F. rewrite Le_tx, tx_abs, (Finite_real x F). apply xle_fin. lra. Qed.
Lemma zle : Le (szero : num A) szero.
Proof. rewrite Le_tx, tx_0. apply xle_fin. lra. Qed.
Lemma add_le_l x y z : tx z = tx x -> Le szero x -> Le szero y -> Le z (sadd x y).
Proof.
  intros E X Y. pose proof (sum_mono x x szero y X) as M. assert (Lx : Le x x) by (rewrite Le_tx; rewrite Le_tx, tx_0 in X; destruct (tx x); try reflexivity; [apply xle_fin; lra | discriminate]).
  destruct (M Lx zle Y) as [K _]. rewrite Le_tx in *. rewrite E. rewrite (tx_add x szero), tx_0, xadd_0_r, xr_txx in K. exact K.
Qed.
Lemma add_comm_tx x y : tx (sadd x y) = tx (sadd y x).
Proof. rewrite !tx_add. f_equal. destruct (tx x), (tx y); cbn; try reflexivity. f_equal. lra. Qed.
Lemma add_le_r x y z : tx z = tx y -> Le szero x -> Le szero y -> Le z (sadd x y).
Proof. intros E X Y. pose proof (add_le_l y x z E Y X) as K. rewrite Le_tx in *. now rewrite add_comm_tx. Qed.
Lemma sq_nn' x : Finite x -> Le szero (smul x x).
Proof. intros F. apply (sq_nn x x), absle, F. Qed.
Lemma le_add0 x y : Le szero x -> Le szero y -> Le szero (sadd x y).
Proof. intros X Y. apply (Le_trans (num_OrdLaws A)) with x; [exact X|]. now apply add_le_l. Qed.
Lemma tx_add_zr x y : tx y = Fin 0 -> tx (sadd x y) = tx x.
Proof. intros E. now rewrite tx_add, E, xadd_0_r, xr_txx. Qed.
Lemma tx_add_zl x y : tx x = Fin 0 -> tx (sadd x y) = tx y.
Proof. intros E. now rewrite tx_add, E, xadd_0_l, xr_txx. Qed.
Lemma sqz x : Eqs x szero -> tx (smul x x) = Fin 0.
Proof. rewrite Eqs_tx, tx_0. intros [E _]. rewrite tx_mul, E. cbn. rewrite Rmult_0_l, <- (tx_0 (A:=A)). apply xr_txx. Qed.
Lemma divz x l : Eqs x szero -> Finite l -> Lt szero l -> Eqs (sdiv x l) szero /\ Eqs (sdiv x l) (sneg szero).
Proof.
  rewrite !Eqs_tx, tx_neg, tx_0, Lt_tx, tx_0. intros [E _] F P. pose proof (Finite_real l F) as El. rewrite El in P. apply xlt_fin in P.
  assert (X : tx (sdiv x l) = Fin 0). { rewrite tx_div, E, El by (rewrite El; apply Fin_neq; lra). cbn [xdiv]. rewrite Req_bool_false by lra. replace (0 / real_of l) with 0 by (field; lra). rewrite <- (tx_0 (A:=A)). apply xr_txx. }
  rewrite X. cbn [xneg]. rewrite Ropp_0. repeat split; discriminate.
Qed.
Lemma div_abs x l : Finite x -> Eqs l (sabs x) -> (Lt szero x -> Eqs (sdiv x l) sone) /\ (Lt x szero -> Eqs (sdiv x l) (sneg sone)).
Proof.
  intros Fx. pose proof (Finite_real x Fx) as E. rewrite !Eqs_tx, !Lt_tx, tx_neg, tx_1, tx_abs, E, tx_0. cbn [xabs xneg]. intros [El _].
  assert (X1 : Fin 1 = xr A (Fin 1)) by (rewrite <- (tx_1 (A:=A)); symmetry; apply xr_txx).
  assert (X2 : Fin (Ropp 1) = xr A (Fin (Ropp 1))) by (change (Fin (Ropp 1)) with (xneg (Fin 1)); rewrite xr_neg, <- X1; reflexivity).
  split; intros P; apply xlt_fin in P.
  - rewrite Rabs_pos_eq in El by lra. assert (Q : tx (sdiv x l) = Fin 1); [|rewrite Q; split; [reflexivity | discriminate]].
    rewrite tx_div, E, El by (rewrite El; apply Fin_neq; lra). cbn [xdiv]. rewrite Req_bool_false by lra. rewrite X1. do 2 f_equal. field. lra.
  - rewrite Rabs_left in El by lra. assert (Q : tx (sdiv x l) = Fin (Ropp 1)); [|rewrite Q; split; [reflexivity | discriminate]].
    rewrite tx_div, E, El by (rewrite El; apply Fin_neq; lra). cbn [xdiv]. rewrite Req_bool_false by lra. rewrite X2. do 2 f_equal. field. lra.
Qed.
End L.
Lemma sq_le_dot2 {A : arith} (v : Vector2 (num A)) (d : Dimension2) : VFinite2 v -> Le (smul (vcoord2 v d) (vcoord2 v d)) (v2_dot v v).
Proof.
  intros F. pose proof (sq_nn' _ (F D2X)) as X. pose proof (sq_nn' _ (F D2Y)) as Y. unfold v2_dot. cbn [vcoord2] in *.
  destruct d; cbn [vcoord2]; [apply add_le_l | apply add_le_r]; auto.
Qed.
Lemma sq_le_dot3 {A : arith} (v : Vector3 (num A)) (d : Dimension3) : VFinite3 v -> Le (smul (vcoord3 v d) (vcoord3 v d)) (v3_dot v v).
Proof.
  intros F. pose proof (sq_nn' _ (F D3X)) as X. pose proof (sq_nn' _ (F D3Y)) as Y. pose proof (sq_nn' _ (F D3Z)) as Z. unfold v3_dot. cbn [vcoord3] in *. pose proof (le_add0 _ _ X Y) as XY.
  destruct d; cbn [vcoord3]; [eapply (Le_trans (num_OrdLaws A)); [apply (add_le_l _ _ _ eq_refl X Y) | now apply add_le_l] | eapply (Le_trans (num_OrdLaws A)); [apply (add_le_r _ _ _ eq_refl X Y) | now apply add_le_l] | now apply add_le_r].
Qed.
Lemma dot_axis2 {A : arith} (v : Vector2 (num A)) (d : Dimension2) : (forall d', d' <> d -> Eqs (vcoord2 v d') szero) -> tx (v2_dot v v) = tx (smul (vcoord2 v d) (vcoord2 v d)).
Proof.
  intros H. unfold v2_dot. destruct d; cbn [vcoord2].
  - apply tx_add_zr. apply sqz. apply (H D2Y). discriminate.
  - apply tx_add_zl. apply sqz. apply (H D2X). discriminate.
Qed.
Lemma dot_axis3 {A : arith} (v : Vector3 (num A)) (d : Dimension3) : (forall d', d' <> d -> Eqs (vcoord3 v d') szero) -> tx (v3_dot v v) = tx (smul (vcoord3 v d) (vcoord3 v d)).
Proof.
  intros H. unfold v3_dot. destruct d; cbn [vcoord3].
  - rewrite tx_add_zr by (apply sqz; apply (H D3Z); discriminate). apply tx_add_zr. apply sqz. apply (H D3Y). discriminate.
  - rewrite tx_add_zr by (apply sqz; apply (H D3Z); discriminate). apply tx_add_zl. apply sqz. apply (H D3X). discriminate.
  - apply tx_add_zl. rewrite tx_add_zr by (apply sqz; apply (H D3Y); discriminate). apply sqz. apply (H D3X). discriminate.
Qed.
Definition dim2_eqb (a b : Dimension2) : bool := match a, b with D2X, D2X => true | D2Y, D2Y => true | _, _ => false end.
Definition dim3_eqb (a b : Dimension3) : bool := match a, b with D3X, D3X => true | D3Y, D3Y => true | D3Z, D3Z => true | _, _ => false end.
Definition wit2 : Vector2 (num A32) := mkVector2 (d32 13 (-78)) (d32 0 0).
Definition wit3 : Vector3 (num A32) := mkVector3 (d32 13 (-78)) (d32 0 0) (d32 0 0).
Ltac conjs := lazymatch goal with |- _ /\ _ => split; conjs | |- _ => idtac end.
Lemma dsub2 {A : arith} (p q : Point2 (num A)) d : vcoord2 (p2_sub q p) d = ssub (coord2 q d) (coord2 p d).
Proof. destruct d; reflexivity. Qed.
Lemma dsub3 {A : arith} (p q : Point3 (num A)) d : vcoord3 (p3_sub q p) d = ssub (coord3 q d) (coord3 p d).
Proof. destruct d; reflexivity. Qed.
Lemma sub_eq0 {A : arith} (x y : num A) : Finite (ssub x y) -> Eqs x y -> Eqs (ssub x y) szero.
Proof.
  intros F. destruct (err_sub x y F) as (Fx & Fy & _). rewrite !Eqs_tx. intros [E _]. rewrite tx_sub, <- E, (Finite_real x Fx), tx_0. cbn [xsub xadd xneg]. rewrite Rplus_opp_r, <- (tx_0 (A:=A)), xr_txx, tx_0. split; [reflexivity | discriminate].
Qed.
Lemma C87_component_le_length_2d_pf : forall (A : arith) (v : Vector2 (num A)) (d : Dimension2), VFinite2 v ->
  (Finite (v2_dot v v) -> min_subnormal A <= unit_roundoff A * real_of (v2_dot v v)) ->
  Le (sabs (vcoord2 v d)) (v2_length v).
Proof.
  intros A v d F H. unfold v2_length. apply comp_le; [apply F | now apply sq_le_dot2 | exact H].
Qed.
Lemma C87_component_le_length_3d_pf : forall (A : arith) (v : Vector3 (num A)) (d : Dimension3), VFinite3 v ->
  (Finite (v3_dot v v) -> min_subnormal A <= unit_roundoff A * real_of (v3_dot v v)) ->
  Le (sabs (vcoord3 v d)) (v3_length v).
Proof.
  intros A v d F H. unfold v3_length. apply comp_le; [apply F | now apply sq_le_dot3 | exact H].
Qed.
Lemma C87_normalized_components_2d_pf : forall (A : arith) (v : Vector2 (num A)) (d : Dimension2), VFinite2 v -> Lt szero (v2_length v) ->
  (Finite (v2_dot v v) -> min_subnormal A <= unit_roundoff A * real_of (v2_dot v v)) ->
  Le (sneg sone) (vcoord2 (v2_normalize v) d) /\ Le (vcoord2 (v2_normalize v) d) sone.
Proof.
  intros A v d F P H. assert (Q : vcoord2 (v2_normalize v) d = sdiv (vcoord2 v d) (v2_length v)) by (destruct d; reflexivity). rewrite Q.
  apply div_unit; [apply F | exact P | now apply C87_component_le_length_2d_pf].
Qed.
Lemma C87_normalized_components_3d_pf : forall (A : arith) (v : Vector3 (num A)) (d : Dimension3), VFinite3 v -> Lt szero (v3_length v) ->
  (Finite (v3_dot v v) -> min_subnormal A <= unit_roundoff A * real_of (v3_dot v v)) ->
  Le (sneg sone) (vcoord3 (v3_normalize v) d) /\ Le (vcoord3 (v3_normalize v) d) sone.
Proof.
  intros A v d F P H. assert (Q : vcoord3 (v3_normalize v) d = sdiv (vcoord3 v d) (v3_length v)) by (destruct d; reflexivity). rewrite Q.
  apply div_unit; [apply F | exact P | now apply C87_component_le_length_3d_pf].
Qed.
Lemma C87_axis_length_2d_pf : forall (A : arith) (v : Vector2 (num A)) (d : Dimension2), (forall d', d' <> d -> Eqs (vcoord2 v d') szero) ->
  Finite (v2_dot v v) -> min_subnormal A <= unit_roundoff A * real_of (v2_dot v v) ->
  Eqs (v2_length v) (sabs (vcoord2 v d)).
Proof.
  intros A v d H F R. pose proof (dot_axis2 v d H) as E. apply real_of_eq in E as E2. destruct E2 as [E2 E3]. rewrite (E3 F) in R. apply E2 in F. pose proof (sqrt_sq _ F (range_sq _ F R)) as Q.
  unfold v2_length. rewrite Eqs_tx in *. rewrite tx_sqrt in *. rewrite E. exact Q.
Qed.
Lemma C87_axis_length_3d_pf : forall (A : arith) (v : Vector3 (num A)) (d : Dimension3), (forall d', d' <> d -> Eqs (vcoord3 v d') szero) ->
  Finite (v3_dot v v) -> min_subnormal A <= unit_roundoff A * real_of (v3_dot v v) ->
  Eqs (v3_length v) (sabs (vcoord3 v d)).
Proof.
  intros A v d H F R. pose proof (dot_axis3 v d H) as E. apply real_of_eq in E as E2. destruct E2 as [E2 E3]. rewrite (E3 F) in R. apply E2 in F. pose proof (sqrt_sq _ F (range_sq _ F R)) as Q.
  unfold v3_length. rewrite Eqs_tx in *. rewrite tx_sqrt in *. rewrite E. exact Q.
Qed.
Lemma C87_axis_normalize_2d_pf : forall (A : arith) (v : Vector2 (num A)) (d : Dimension2), (forall d', d' <> d -> Eqs (vcoord2 v d') szero) ->
  Finite (v2_dot v v) -> min_subnormal A <= unit_roundoff A * real_of (v2_dot v v) ->
  (Lt szero (vcoord2 v d) -> VEq2 (v2_normalize v) (v2_axis d)) /\
  (Lt (vcoord2 v d) szero -> VEq2 (v2_normalize v) (v2_neg (v2_axis d))).
Proof.
  intros A v d H F R. pose proof (C87_axis_length_2d_pf A v d H F R) as Q.
  assert (Fd : Finite (vcoord2 v d)). { pose proof (dot_axis2 v d H) as E. apply real_of_eq in E. destruct E as [E _]. apply E in F. now destruct (err_mul _ _ F). }
  assert (Fl : Finite (v2_length v)). { rewrite Eqs_tx, tx_abs, (Finite_real _ Fd) in Q. rewrite Finite_tx. destruct Q as [Q _]. cbn in Q. eauto. }
  assert (C : forall e, vcoord2 (v2_normalize v) e = sdiv (vcoord2 v e) (v2_length v)) by (intros []; reflexivity).
  assert (Ax : forall e, vcoord2 (v2_axis d : Vector2 (num A)) e = (if dim2_eqb e d then sone else szero)) by (intros []; destruct d; reflexivity).
  assert (An : forall e, vcoord2 (v2_neg (v2_axis d) : Vector2 (num A)) e = sneg (vcoord2 (v2_axis d) e)) by (intros []; destruct d; reflexivity).
  pose proof (div_abs _ _ Fd Q) as [D1 D2].
  assert (Pl : forall P : Prop, (Lt szero (vcoord2 v d) \/ Lt (vcoord2 v d) szero) -> (Lt szero (v2_length v) -> P) -> P).
  { intros P L K. apply K. rewrite Eqs_tx, tx_abs in Q. rewrite !Lt_tx, tx_0 in L. rewrite Lt_tx, tx_0, (proj1 Q). rewrite (Finite_real _ Fd) in *. cbn [xabs]. apply xlt_fin. destruct L as [L|L]; apply xlt_fin in L; apply Rabs_pos_lt; lra. }
  split; intros L; (eapply Pl; [tauto|]; clear Pl; intros Pl); intros e; rewrite C, ?An, Ax; (destruct (dim2_eqb e d) eqn:B;
    [assert (e = d) by (revert B; destruct e, d; cbn; congruence); subst e; auto | assert (e <> d) by (intros ->; revert B; destruct d; discriminate)]); apply divz; auto.
Qed.
Lemma C87_axis_normalize_3d_pf : forall (A : arith) (v : Vector3 (num A)) (d : Dimension3), (forall d', d' <> d -> Eqs (vcoord3 v d') szero) ->
  Finite (v3_dot v v) -> min_subnormal A <= unit_roundoff A * real_of (v3_dot v v) ->
  (Lt szero (vcoord3 v d) -> VEq3 (v3_normalize v) (v3_axis d)) /\
  (Lt (vcoord3 v d) szero -> VEq3 (v3_normalize v) (v3_neg (v3_axis d))).
Proof.
  intros A v d H F R. pose proof (C87_axis_length_3d_pf A v d H F R) as Q.
  assert (Fd : Finite (vcoord3 v d)). { pose proof (dot_axis3 v d H) as E. apply real_of_eq in E. destruct E as [E _]. apply E in F. now destruct (err_mul _ _ F). }
  assert (Fl : Finite (v3_length v)). { rewrite Eqs_tx, tx_abs, (Finite_real _ Fd) in Q. rewrite Finite_tx. destruct Q as [Q _]. cbn in Q. eauto. }
  assert (C : forall e, vcoord3 (v3_normalize v) e = sdiv (vcoord3 v e) (v3_length v)) by (intros []; reflexivity).
  assert (Ax : forall e, vcoord3 (v3_axis d : Vector3 (num A)) e = (if dim3_eqb e d then sone else szero)) by (intros []; destruct d; reflexivity).
  assert (An : forall e, vcoord3 (v3_neg (v3_axis d) : Vector3 (num A)) e = sneg (vcoord3 (v3_axis d) e)) by (intros []; destruct d; reflexivity).
  pose proof (div_abs _ _ Fd Q) as [D1 D2].
  assert (Pl : forall P : Prop, (Lt szero (vcoord3 v d) \/ Lt (vcoord3 v d) szero) -> (Lt szero (v3_length v) -> P) -> P).
  { intros P L K. apply K. rewrite Eqs_tx, tx_abs in Q. rewrite !Lt_tx, tx_0 in L. rewrite Lt_tx, tx_0, (proj1 Q). rewrite (Finite_real _ Fd) in *. cbn [xabs]. apply xlt_fin. destruct L as [L|L]; apply xlt_fin in L; apply Rabs_pos_lt; lra. }
  split; intros L; (eapply Pl; [tauto|]; clear Pl; intros Pl); intros e; rewrite C, ?An, Ax; (destruct (dim3_eqb e d) eqn:B;
    [assert (e = d) by (revert B; destruct e, d; cbn; congruence); subst e; auto | assert (e <> d) by (intros ->; revert B; destruct d; discriminate)]); apply divz; auto.
Qed.
Lemma C87_coordinate_difference_le_distance_2d_pf : forall (A : arith) (p q : Point2 (num A)) (d : Dimension2), (forall e, Finite (ssub (coord2 q e) (coord2 p e))) ->
  (let w := p2_sub q p in Finite (v2_dot w w) -> min_subnormal A <= unit_roundoff A * real_of (v2_dot w w)) ->
  Le (sabs (ssub (coord2 q d) (coord2 p d))) (p2_distance p q).
Proof.
  intros A p q d F H. unfold p2_distance. rewrite <- dsub2. apply C87_component_le_length_2d_pf; [intros e; rewrite dsub2; apply F | exact H].
Qed.
Lemma C87_coordinate_difference_le_distance_3d_pf : forall (A : arith) (p q : Point3 (num A)) (d : Dimension3), (forall e, Finite (ssub (coord3 q e) (coord3 p e))) ->
  (let w := p3_sub q p in Finite (v3_dot w w) -> min_subnormal A <= unit_roundoff A * real_of (v3_dot w w)) ->
  Le (sabs (ssub (coord3 q d) (coord3 p d))) (p3_distance p q).
Proof.
  intros A p q d F H. unfold p3_distance. rewrite <- dsub3. apply C87_component_le_length_3d_pf; [intros e; rewrite dsub3; apply F | exact H].
Qed.
Lemma C87_axis_distance_2d_pf : forall (A : arith) (p q : Point2 (num A)) (d : Dimension2), (forall e, Finite (ssub (coord2 q e) (coord2 p e))) ->
  (forall d', d' <> d -> Eqs (coord2 q d') (coord2 p d')) ->
  (let w := p2_sub q p in Finite (v2_dot w w) /\ min_subnormal A <= unit_roundoff A * real_of (v2_dot w w)) ->
  Eqs (p2_distance p q) (sabs (ssub (coord2 q d) (coord2 p d))).
Proof.
  intros A p q d F N [H1 H2]. unfold p2_distance. rewrite <- dsub2. apply C87_axis_length_2d_pf; [|exact H1 | exact H2]. intros d' Hd. rewrite dsub2. apply sub_eq0; [apply F | now apply N].
Qed.
Lemma C87_axis_distance_3d_pf : forall (A : arith) (p q : Point3 (num A)) (d : Dimension3), (forall e, Finite (ssub (coord3 q e) (coord3 p e))) ->
  (forall d', d' <> d -> Eqs (coord3 q d') (coord3 p d')) ->
  (let w := p3_sub q p in Finite (v3_dot w w) /\ min_subnormal A <= unit_roundoff A * real_of (v3_dot w w)) ->
  Eqs (p3_distance p q) (sabs (ssub (coord3 q d) (coord3 p d))).
Proof.
  intros A p q d F N [H1 H2]. unfold p3_distance. rewrite <- dsub3. apply C87_axis_length_3d_pf; [|exact H1 | exact H2]. intros d' Hd. rewrite dsub3. apply sub_eq0; [apply F | now apply N].
Qed.
Lemma C87_range_needed_2d_pf : exists v : Vector2 (num A32), VFinite2 v /\ Finite (v2_dot v v) /\ Lt szero (v2_length v) /\
  (forall d', d' <> D2X -> Eqs (vcoord2 v d') szero) /\
  Lt (v2_length v) (sabs (vcoord2 v D2X)) /\ Lt sone (vcoord2 (v2_normalize v) D2X).
Proof.
  exists (wit2). conjs; try (intros []; intros; try congruence); vm_compute; reflexivity.
Qed.
Lemma C87_range_needed_3d_pf : exists v : Vector3 (num A32), VFinite3 v /\ Finite (v3_dot v v) /\ Lt szero (v3_length v) /\
  (forall d', d' <> D3X -> Eqs (vcoord3 v d') szero) /\
  Lt (v3_length v) (sabs (vcoord3 v D3X)) /\ Lt sone (vcoord3 (v3_normalize v) D3X).
Proof.
  exists (wit3). conjs; try (intros []; intros; try congruence); vm_compute; reflexivity.
Qed.
