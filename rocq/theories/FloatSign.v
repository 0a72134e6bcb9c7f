(** Proofs: negation passes through the operations, in every arithmetic and for every value (C74). *)
From Coq Require Import Bool NArith ZArith Reals List Lra Lia.
From Flocq Require Import Core.Zaux Core.Raux Core.Defs Core.Generic_fmt Core.Float_prop Core.FLT IEEE754.BinarySingleNaN.
From Verif Require Import Scalar Types Vector2 Vector3 Point2 Point3 Ray BoundingBox2 BoundingBox3 Transform2 Transform3 Float
  XReal OrdLaws Arith SpecOrder SpecStruct SpecFloat SpecSame FloatX XArith FloatLaws FloatInt FloatGeom ExVals.
From Coq Require Import Btauto.
Local Open Scope R_scope.
Lemma xadd_neg_neg x y : xadd (xneg x) (xneg y) = xneg (xadd x y).
Proof. destruct x, y; cbn; try reflexivity. f_equal. ring. Qed.
Lemma xsigned_inf_neg a : xsigned_inf (- a) = xneg (xsigned_inf a).
Proof. unfold xsigned_inf. destruct (Rlt_bool_spec 0 a), (Rlt_bool_spec a 0), (Rlt_bool_spec 0 (- a)), (Rlt_bool_spec (- a) 0); cbn; try reflexivity; lra. Qed.
Lemma xmul_neg_l x y : xmul (xneg x) y = xneg (xmul x y).
Proof. destruct x, y; cbn [xneg xmul]; rewrite ?xsigned_inf_neg, ?xneg_xneg; try reflexivity. f_equal. ring. Qed.
Lemma xmul_neg_r x y : xmul x (xneg y) = xneg (xmul x y).
Proof. destruct x, y; cbn [xneg xmul]; rewrite ?xsigned_inf_neg, ?xneg_xneg; try reflexivity. f_equal. ring. Qed.
Lemma xdiv_neg_l x y : xdiv (xneg x) y = xneg (xdiv x y).
Proof.
  destruct x, y; cbn [xneg xdiv]; try reflexivity; try (destruct Rlt_bool; reflexivity); [|f_equal; ring | f_equal; ring].
  destruct (Req_bool r0 0); [apply xsigned_inf_neg|]. cbn. f_equal. unfold Rdiv. ring.
Qed.
Lemma xdiv_neg_r x y : y <> Fin 0 -> xdiv x (xneg y) = xneg (xdiv x y).
Proof.
  intros H. destruct x as [a| | |], y as [b| | |]; cbn [xneg xdiv]; try reflexivity.
  - assert (b <> 0) by congruence. rewrite !Req_bool_false by lra. cbn. f_equal. field. lra.
  - f_equal. ring.
  - f_equal. ring.
  - assert (b <> 0) by congruence. destruct (Rlt_bool_spec (- b) 0), (Rlt_bool_spec b 0); try reflexivity; lra.
  - assert (b <> 0) by congruence. destruct (Rlt_bool_spec (- b) 0), (Rlt_bool_spec b 0); try reflexivity; lra.
Qed.
Section S.
Context {A : arith}.
Implicit Types x y : num A.
Lemma Same_tx x y : Same x y <-> tx x = tx y.
Proof.
  unfold Same. rewrite Eqs_tx, !tx_nan. split.
  - intros [[H _]|[H K]]; [assumption|]. destruct (tx x), (tx y); try discriminate; reflexivity.
  - intros E. rewrite <- E. destruct (tx x); [left | left | left | right]; split; try reflexivity; discriminate.
Qed.
(* x is minus y / the same as y, up to the sign of zero *)
Definition Ng x y : Prop := tx x = xneg (tx y).
Definition Sm x y : Prop := tx x = tx y.
Lemma Ng_neg x : Ng (sneg x) x. Proof. apply tx_neg. Qed.
Lemma Sm_refl x : Sm x x. Proof. reflexivity. Qed.
Lemma Ng_neg' x y : Sm x y -> Ng (sneg x) y. Proof. unfold Ng, Sm. rewrite tx_neg. congruence. Qed.
Lemma Sm_neg x y : Ng x y -> Sm (sneg x) y. Proof. unfold Ng, Sm. rewrite tx_neg. intros ->. apply xneg_xneg. Qed.
Lemma Sm_neg_r x y : Ng x y -> Sm x (sneg y). Proof. unfold Ng, Sm. rewrite tx_neg. auto. Qed.
Lemma Ng_mul_l x x' y y' : Ng x x' -> Sm y y' -> Ng (smul x y) (smul x' y').
Proof. unfold Ng, Sm. rewrite !tx_mul. intros -> ->. now rewrite xmul_neg_l, xr_neg. Qed.
Lemma Ng_mul_r x x' y y' : Sm x x' -> Ng y y' -> Ng (smul x y) (smul x' y').
Proof. unfold Ng, Sm. rewrite !tx_mul. intros -> ->. now rewrite xmul_neg_r, xr_neg. Qed.
Lemma Sm_mul_nn x x' y y' : Ng x x' -> Ng y y' -> Sm (smul x y) (smul x' y').
Proof. unfold Ng, Sm. rewrite !tx_mul. intros -> ->. now rewrite xmul_neg_neg. Qed.
Lemma Ng_add x x' y y' : Ng x x' -> Ng y y' -> Ng (sadd x y) (sadd x' y').
Proof. unfold Ng. rewrite !tx_add. intros -> ->. now rewrite xadd_neg_neg, xr_neg. Qed.
Lemma Sm_add x x' y y' : Sm x x' -> Sm y y' -> Sm (sadd x y) (sadd x' y').
Proof. unfold Sm. rewrite !tx_add. now intros -> ->. Qed.
Lemma Ng_sub x x' y y' : Ng x x' -> Ng y y' -> Ng (ssub x y) (ssub x' y').
Proof. unfold Ng. rewrite !tx_sub. intros -> ->. unfold xsub. now rewrite xadd_neg_neg, xr_neg. Qed.
Lemma Ng_sub_swap x y : Ng (ssub x y) (ssub y x).
Proof. unfold Ng. now rewrite !tx_sub, <- xr_neg, <- xsub_anti. Qed.
Lemma Ng_div_l x x' y : Ng x x' -> Ng (sdiv x y) (sdiv x' y).
Proof.
  unfold Ng. intros E. destruct A as [f P|].
  2:{ cbn in *. rewrite E. apply xdiv_neg_l. }
  destruct (toX y) eqn:Y; try (rewrite !tx_div by (cbn [tx] in *; rewrite Y; discriminate); rewrite E, xdiv_neg_l; apply xr_neg).
  destruct (Req_dec r 0) as [->|N]; [|rewrite !tx_div by (cbn [tx] in *; rewrite Y; intros K; injection K; auto); rewrite E, xdiv_neg_l; apply xr_neg].
  cbn [tx] in *. change (toX (fdiv x y) = xneg (toX (fdiv x' y))).
  assert (Z : forall s m e H, toX (B754_finite s m e H : F f) <> Fin 0).
  { intros s m e H K. assert (K' : F2R (Float radix2 (cond_Zopp s (Z.pos m)) e) = 0) by (cbn [toX B2R] in K; congruence). apply eq_0_F2R in K'. destruct s; discriminate. }
  destruct y as [sy|sy| |sy my ey Hy]; [|destruct sy; discriminate | discriminate | now apply Z in Y].
  assert (Q : forall s m e H s' m' e' H', toX (B754_finite s m e H : F f) = xneg (toX (B754_finite s' m' e' H' : F f)) -> s = negb s').
  { intros s m e H s' m' e' H' K. cbn [toX B2R xneg] in K. injection K as K.
    destruct s, s'; try reflexivity; exfalso.
    - pose proof (F2R_lt_0 radix2 (Float radix2 (Z.neg m) e) eq_refl). pose proof (F2R_lt_0 radix2 (Float radix2 (Z.neg m') e') eq_refl). cbn [cond_Zopp Z.opp] in K. lra.
    - pose proof (F2R_gt_0 radix2 (Float radix2 (Z.pos m) e) eq_refl). pose proof (F2R_gt_0 radix2 (Float radix2 (Z.pos m') e') eq_refl). cbn [cond_Zopp Z.opp] in K. lra. }
  destruct x as [s|s| |s m e H], x' as [s'|s'| |s' m' e' H']; try (exfalso; clear - E; destruct s; discriminate); try (exfalso; clear - E; destruct s'; discriminate); try (exfalso; clear - E; destruct s, s'; discriminate); try reflexivity;
    try (exfalso; discriminate).
  - exfalso. apply (Z s' m' e' H'). cbn [toX B2R xneg] in *. injection E as E. f_equal. lra.
  - destruct s, s', sy; try discriminate; reflexivity.
  - exfalso. apply (Z s m e H). rewrite E. cbn. f_equal. ring.
  - apply Q in E. subst s. destruct s', sy; reflexivity.
Qed.
Lemma Ng_div_r x y y' : Ng y y' -> ~ Eqs y' szero -> Ng (sdiv x y) (sdiv x y').
Proof.
  unfold Ng. rewrite Eqs_tx, tx_0. intros E H. assert (N : tx y' <> Fin 0) by (intros K; apply H; rewrite K; split; [reflexivity | discriminate]).
  rewrite !tx_div, E, xdiv_neg_r, xr_neg; try assumption; try reflexivity. rewrite E. intros K. apply N. rewrite <- (xneg_xneg (tx y')), K. cbn. f_equal. ring.
Qed.
Lemma tx_floor x : tx (sfloor x) = xint Zfloor (tx x).
Proof.
  destruct A as [f P|]; [|reflexivity]. destruct (tx x) eqn:E; cbn [tx xint] in *.
  - apply (proj1 (RealVal_tx (A:=IEEE f P) _ _)), (nearby_val f P mode_DN). now apply RealVal_tx.
  - destruct x as [|[]| |]; try discriminate; reflexivity.
  - destruct x as [|[]| |]; try discriminate; reflexivity.
  - destruct x as [|[]| |]; try discriminate; reflexivity.
Qed.
Lemma tx_ceil x : tx (sceil x) = xint Zceil (tx x).
Proof.
  destruct A as [f P|]; [|reflexivity]. destruct (tx x) eqn:E; cbn [tx xint] in *.
  - apply (proj1 (RealVal_tx (A:=IEEE f P) _ _)), (nearby_val f P mode_UP). now apply RealVal_tx.
  - destruct x as [|[]| |]; try discriminate; reflexivity.
  - destruct x as [|[]| |]; try discriminate; reflexivity.
  - destruct x as [|[]| |]; try discriminate; reflexivity.
Qed.
Lemma tx_round x : tx (sround x) = xint (Znearest (Zle_bool 0)) (tx x).
Proof.
  destruct A as [f P|]; [|reflexivity]. destruct (tx x) eqn:E; cbn [tx xint] in *.
  - apply (proj1 (RealVal_tx (A:=IEEE f P) _ _)), (nearby_val f P mode_NA). now apply RealVal_tx.
  - destruct x as [|[]| |]; try discriminate; reflexivity.
  - destruct x as [|[]| |]; try discriminate; reflexivity.
  - destruct x as [|[]| |]; try discriminate; reflexivity.
Qed.
Lemma tx_trunc x : tx (strunc x) = xint Ztrunc (tx x).
Proof.
  destruct A as [f P|]; [|reflexivity]. destruct (tx x) eqn:E; cbn [tx xint] in *.
  - apply (proj1 (RealVal_tx (A:=IEEE f P) _ _)), (nearby_val f P mode_ZR). now apply RealVal_tx.
  - destruct x as [|[]| |]; try discriminate; reflexivity.
  - destruct x as [|[]| |]; try discriminate; reflexivity.
  - destruct x as [|[]| |]; try discriminate; reflexivity.
Qed.
Lemma Ng_floor x y : Ng x y -> Ng (sfloor x) (sceil y).
Proof.
  unfold Ng. rewrite tx_floor, tx_ceil. intros ->. destruct (tx y); cbn; try reflexivity. f_equal. unfold Zceil. rewrite opp_IZR. ring.
Qed.
Lemma Ng_ceil x y : Ng x y -> Ng (sceil x) (sfloor y).
Proof.
  unfold Ng. rewrite tx_floor, tx_ceil. intros ->. destruct (tx y); cbn; try reflexivity. f_equal. unfold Zceil. rewrite Ropp_involutive, opp_IZR. ring.
Qed.
Lemma Ng_trunc x y : Ng x y -> Ng (strunc x) (strunc y).
Proof. unfold Ng. rewrite !tx_trunc. intros ->. destruct (tx y); cbn; try reflexivity. f_equal. rewrite Ztrunc_opp, opp_IZR. ring. Qed.
Lemma Ng_fract x y : Ng x y -> Ng (ssub x (strunc x)) (ssub y (strunc y)).
Proof. intros H. apply Ng_sub; [assumption|]. now apply Ng_trunc. Qed.
Lemma fract_def x : sfract x = ssub x (strunc x).
Proof. destruct A; reflexivity. Qed.
Lemma round_uniq r n m : round_of r n -> round_of r m -> n = m.
Proof.
  intros [H1 H2] [K1 K2].
  assert (L1 : IZR n - IZR m <= 1) by (revert H1 K1; unfold Rabs; repeat destruct Rcase_abs; lra).
  assert (L2 : IZR m - IZR n <= 1) by (revert H1 K1; unfold Rabs; repeat destruct Rcase_abs; lra).
  rewrite <- minus_IZR in L1, L2. apply le_IZR in L1, L2.
  assert (C : (n = m \/ n = m + 1 \/ m = n + 1)%Z) by lia. destruct C as [C|[C|C]]; [assumption| |].
  - exfalso. assert (E : IZR n = IZR m + 1) by (rewrite C, plus_IZR; reflexivity).
    assert (Q1 : Rabs (r - IZR n) = / 2) by (revert H1 K1; rewrite E; unfold Rabs; repeat destruct Rcase_abs; lra).
    assert (Q2 : Rabs (r - IZR m) = / 2) by (revert H1 K1; rewrite E; unfold Rabs; repeat destruct Rcase_abs; lra).
    specialize (H2 Q1). specialize (K2 Q2). assert (R : r = IZR m + / 2) by (revert Q1 Q2; rewrite E; unfold Rabs; repeat destruct Rcase_abs; lra).
    rewrite E, R in *. destruct (Z_le_gt_dec 0 m) as [P|P]; [apply IZR_le in P; rewrite !Rabs_pos_eq in K2 by lra; lra|].
    assert (P' : (m <= -1)%Z) by lia. apply IZR_le in P'. rewrite !Rabs_left1 in H2 by lra. lra.
  - exfalso. assert (E : IZR m = IZR n + 1) by (rewrite C, plus_IZR; reflexivity).
    assert (Q1 : Rabs (r - IZR n) = / 2) by (revert H1 K1; rewrite E; unfold Rabs; repeat destruct Rcase_abs; lra).
    assert (Q2 : Rabs (r - IZR m) = / 2) by (revert H1 K1; rewrite E; unfold Rabs; repeat destruct Rcase_abs; lra).
    specialize (H2 Q1). specialize (K2 Q2). assert (R : r = IZR n + / 2) by (revert Q1 Q2; rewrite E; unfold Rabs; repeat destruct Rcase_abs; lra).
    rewrite E, R in *. destruct (Z_le_gt_dec 0 n) as [P|P]; [apply IZR_le in P; rewrite !Rabs_pos_eq in H2 by lra; lra|].
    assert (P' : (n <= -1)%Z) by lia. apply IZR_le in P'. rewrite !Rabs_left1 in K2 by lra. lra.
Qed.
Lemma Ng_round x y : Ng x y -> Ng (sround x) (sround y).
Proof.
  unfold Ng. rewrite !tx_round. intros ->. destruct (tx y); cbn; try reflexivity. f_equal. rewrite <- opp_IZR. f_equal.
  apply (round_uniq (- r)); [apply Znearest_of|]. destruct (Znearest_of r) as [H K]. unfold round_of. rewrite opp_IZR, !Rabs_Ropp.
  replace (- r - - IZR _) with (- (r - IZR (Znearest (Zle_bool 0) r))) by ring. rewrite Rabs_Ropp. auto.
Qed.
Lemma Sm_abs x y : Ng x y -> Sm (sabs x) (sabs y).
Proof. unfold Ng, Sm. rewrite !tx_abs. intros ->. destruct (tx y); cbn; try reflexivity. now rewrite Rabs_Ropp. Qed.
Lemma tx_min x y : tx (s_min x y) = xmin (tx x) (tx y).
Proof.
  unfold s_min, xmin. pose proof (num_OrdLaws A) as L. rewrite <- !tx_nan. destruct (snan x) eqn:X; [now rewrite (ol_min_nan1 _ L)|]. destruct (snan y) eqn:Y; [now rewrite (ol_min_nan2 _ L)|].
  destruct (ol_min_le _ L x y X Y) as [M1 M2]. rewrite !tx_le in *. rewrite tx_nan in X, Y.
  destruct (ol_min_sel _ L x y) as [E|E]; rewrite E in *; destruct (xle (tx x) (tx y)) eqn:Q; try reflexivity; try congruence.
  apply xeq_eq. unfold xeq. now rewrite M1, Q.
Qed.
Lemma tx_max x y : tx (s_max x y) = xmax (tx x) (tx y).
Proof.
  unfold s_max, xmax. pose proof (num_OrdLaws A) as L. rewrite <- !tx_nan. destruct (snan x) eqn:X; [now rewrite (ol_max_nan1 _ L)|]. destruct (snan y) eqn:Y; [now rewrite (ol_max_nan2 _ L)|].
  destruct (ol_max_le _ L x y X Y) as [M1 M2]. rewrite !tx_le in *. rewrite tx_nan in X, Y.
  destruct (ol_max_sel _ L x y) as [E|E]; rewrite E in *; destruct (xle (tx x) (tx y)) eqn:Q; try reflexivity; try congruence.
  apply xeq_eq. unfold xeq. now rewrite M2, Q.
Qed.
Lemma xle_neg a b : xle (xneg a) (xneg b) = xle b a.
Proof. destruct a as [a| | |], b as [b| | |]; cbn; try reflexivity. destruct (Rle_bool_spec (- a) (- b)), (Rle_bool_spec b a); try reflexivity; lra. Qed.
Lemma xnan_neg a : xnan (xneg a) = xnan a. Proof. destruct a; reflexivity. Qed.
Lemma xle_total a b : xnan a = false -> xnan b = false -> xle a b = true \/ xle b a = true.
Proof. destruct a as [a| | |], b as [b| | |]; cbn; try discriminate; auto. intros _ _. destruct (Rle_or_lt a b); [left | right]; apply Rle_bool_true; lra. Qed.
Lemma Ng_min x x' y y' : Ng x x' -> Ng y y' -> Ng (s_min x y) (s_max x' y').
Proof.
  unfold Ng. rewrite tx_min, tx_max. intros -> ->. unfold xmin, xmax. rewrite !xnan_neg, xle_neg.
  destruct (xnan (tx x')) eqn:X; [reflexivity|]. destruct (xnan (tx y')) eqn:Y; [reflexivity|].
  destruct (xle (tx y') (tx x')) eqn:Q1, (xle (tx x') (tx y')) eqn:Q2; try reflexivity.
  - f_equal. apply xeq_eq. unfold xeq. now rewrite Q1, Q2.
  - destruct (xle_total _ _ X Y); congruence.
Qed.
Lemma Ng_max x x' y y' : Ng x x' -> Ng y y' -> Ng (s_max x y) (s_min x' y').
Proof.
  unfold Ng. rewrite tx_min, tx_max. intros -> ->. unfold xmin, xmax. rewrite !xnan_neg, xle_neg.
  destruct (xnan (tx x')) eqn:X; [reflexivity|]. destruct (xnan (tx y')) eqn:Y; [reflexivity|].
  destruct (xle (tx y') (tx x')) eqn:Q1, (xle (tx x') (tx y')) eqn:Q2; try reflexivity.
  - f_equal. apply xeq_eq. unfold xeq. now rewrite Q1, Q2.
  - destruct (xle_total _ _ X Y); congruence.
Qed.
Lemma xmin_comm a b : xmin a b = xmin b a.
Proof.
  unfold xmin. destruct (xnan a) eqn:X, (xnan b) eqn:Y; try reflexivity; [destruct a, b; try discriminate; reflexivity|].
  destruct (xle a b) eqn:Q1, (xle b a) eqn:Q2; try reflexivity; [|destruct (xle_total _ _ X Y); congruence]. apply xeq_eq. unfold xeq. now rewrite Q1, Q2.
Qed.
Lemma xmax_comm a b : xmax a b = xmax b a.
Proof.
  unfold xmax. destruct (xnan a) eqn:X, (xnan b) eqn:Y; try reflexivity; [destruct a, b; try discriminate; reflexivity|].
  destruct (xle a b) eqn:Q1, (xle b a) eqn:Q2; try reflexivity; [|destruct (xle_total _ _ X Y); congruence]. apply xeq_eq. unfold xeq. now rewrite Q1, Q2.
Qed.
Lemma Ng_min_swap x x' y y' : Ng x y' -> Ng y x' -> Ng (s_min x y) (s_max x' y').
Proof. intros H K. pose proof (Ng_min _ _ _ _ H K) as E. unfold Ng in *. now rewrite E, !tx_max, xmax_comm. Qed.
Lemma Ng_max_swap x x' y y' : Ng x y' -> Ng y x' -> Ng (s_max x y) (s_min x' y').
Proof. intros H K. pose proof (Ng_max _ _ _ _ H K) as E. unfold Ng in *. now rewrite E, !tx_min, xmin_comm. Qed.
Lemma neg_neg x : sneg (sneg x) = x.
Proof. destruct A as [f P|]; [destruct x as [[]|[]| |[]]; reflexivity | cbn; apply xneg_xneg]. Qed.
End S.
Ltac ng := lazymatch goal with
  | |- Ng (sneg _) _ => first [apply Ng_neg | apply Ng_neg'; ng]
  | |- Sm (sneg _) _ => apply Sm_neg; ng
  | |- Ng (sadd _ _) _ => apply Ng_add; ng
  | |- Ng (ssub _ _) _ => first [apply Ng_sub_swap | apply Ng_sub; ng]
  | |- Ng (smul _ _) _ => first [solve [apply Ng_mul_l; [ng | apply Sm_refl]] | solve [apply Ng_mul_r; [apply Sm_refl | ng]]]
  | |- Ng (sdiv _ _) _ => apply Ng_div_l; ng
  | |- Ng (sfloor _) _ => apply Ng_floor; ng
  | |- Ng (sceil _) _ => apply Ng_ceil; ng
  | |- Ng (sround _) _ => apply Ng_round; ng
  | |- Ng (strunc _) _ => apply Ng_trunc; ng
  | |- Ng (sfract _) _ => rewrite !fract_def; apply Ng_fract; ng
  | |- Ng (s_min _ _) _ => first [solve [apply Ng_min; ng] | apply Ng_min_swap; ng]
  | |- Ng (s_max _ _) _ => first [solve [apply Ng_max; ng] | apply Ng_max_swap; ng]
  | |- Sm (sabs _) _ => apply Sm_abs; ng
  | |- Sm (sadd _ _) _ => apply Sm_add; ng
  | |- Sm (smul _ _) _ => first [solve [apply Sm_mul_nn; ng] | apply Sm_refl]
  | |- Sm _ _ => first [apply Sm_refl | assumption]
  | |- Ng _ _ => assumption
  end.
Ltac ngs := apply Same_tx; lazymatch goal with |- tx ?x = tx (sneg ?y) => change (Sm x (sneg y)); apply Sm_neg_r; ng | |- tx ?x = tx ?y => change (Sm x y); ng end.
Ltac conjs := lazymatch goal with |- _ /\ _ => split; conjs | |- _ => idtac end.
Lemma C74_arithmetic_2d_pf : forall (A : arith) (a b : Vector2 (num A)) (p q : Point2 (num A)) (s : num A),
  v2_neg (v2_neg a) = a /\ p2_neg (p2_neg p) = p /\
  VSame2 (v2_add (v2_neg a) (v2_neg b)) (v2_neg (v2_add a b)) /\ VSame2 (v2_sub a b) (v2_neg (v2_sub b a)) /\ VSame2 (p2_sub p q) (v2_neg (p2_sub q p)) /\
  VSame2 (v2_mul (v2_neg a) s) (v2_neg (v2_mul a s)) /\ VSame2 (v2_mul a (sneg s)) (v2_neg (v2_mul a s)) /\
  VSame2 (v2_div (v2_neg a) s) (v2_neg (v2_div a s)) /\ (~ Eqs s szero -> VSame2 (v2_div a (sneg s)) (v2_neg (v2_div a s))).
Proof.
  intros A a b p q s. split; [destruct a as [x1 x2]; unfold v2_neg, v2_new; cbn [p2x p2y v2x v2y]; rewrite !neg_neg; reflexivity|]. split; [destruct p as [x1 x2]; unfold p2_neg, p2_new; cbn [p2x p2y v2x v2y]; rewrite !neg_neg; reflexivity|].
  conjs; lazymatch goal with |- ~ _ -> _ => intros N | |- _ => idtac end;
    intros []; unfold v2_neg, v2_add, v2_sub, p2_sub, v2_mul, v2_div, v2_new; cbn [vcoord2 p2x p2y v2x v2y];
    first [solve [ngs] | apply Same_tx, Sm_neg_r, Ng_div_r; [apply Ng_neg | exact N]].
Qed.
Lemma C74_arithmetic_3d_pf : forall (A : arith) (a b : Vector3 (num A)) (p q : Point3 (num A)) (s : num A),
  v3_neg (v3_neg a) = a /\ p3_neg (p3_neg p) = p /\
  VSame3 (v3_add (v3_neg a) (v3_neg b)) (v3_neg (v3_add a b)) /\ VSame3 (v3_sub a b) (v3_neg (v3_sub b a)) /\ VSame3 (p3_sub p q) (v3_neg (p3_sub q p)) /\
  VSame3 (v3_mul (v3_neg a) s) (v3_neg (v3_mul a s)) /\ VSame3 (v3_mul a (sneg s)) (v3_neg (v3_mul a s)) /\
  VSame3 (v3_div (v3_neg a) s) (v3_neg (v3_div a s)) /\ (~ Eqs s szero -> VSame3 (v3_div a (sneg s)) (v3_neg (v3_div a s))).
Proof.
  intros A a b p q s. split; [destruct a as [x1 x2 x3]; unfold v3_neg, v3_new; cbn [p3x p3y p3z v3x v3y v3z]; rewrite !neg_neg; reflexivity|]. split; [destruct p as [x1 x2 x3]; unfold p3_neg, p3_new; cbn [p3x p3y p3z v3x v3y v3z]; rewrite !neg_neg; reflexivity|].
  conjs; lazymatch goal with |- ~ _ -> _ => intros N | |- _ => idtac end;
    intros []; unfold v3_neg, v3_add, v3_sub, p3_sub, v3_mul, v3_div, v3_new; cbn [vcoord3 p3x p3y p3z v3x v3y v3z];
    first [solve [ngs] | apply Same_tx, Sm_neg_r, Ng_div_r; [apply Ng_neg | exact N]].
Qed.
Lemma C74_dot_2d_pf : forall (A : arith) (a b : Vector2 (num A)), Same (v2_dot (v2_neg a) b) (sneg (v2_dot a b)) /\ Same (v2_dot a (v2_neg b)) (sneg (v2_dot a b)) /\ Same (v2_dot (v2_neg a) (v2_neg b)) (v2_dot a b).
Proof.
  intros A a b. unfold v2_dot, v2_neg, v2_new; cbn [p2x p2y v2x v2y]. conjs; ngs.
Qed.
Lemma C74_dot_3d_pf : forall (A : arith) (a b : Vector3 (num A)), Same (v3_dot (v3_neg a) b) (sneg (v3_dot a b)) /\ Same (v3_dot a (v3_neg b)) (sneg (v3_dot a b)) /\ Same (v3_dot (v3_neg a) (v3_neg b)) (v3_dot a b).
Proof.
  intros A a b. unfold v3_dot, v3_neg, v3_new; cbn [p3x p3y p3z v3x v3y v3z]. conjs; ngs.
Qed.
Lemma C74_cross_pf : forall (A : arith) (a b : Vector3 (num A)),
  VSame3 (v3_cross (v3_neg a) b) (v3_neg (v3_cross a b)) /\ VSame3 (v3_cross a (v3_neg b)) (v3_neg (v3_cross a b)) /\ VSame3 (v3_cross b a) (v3_neg (v3_cross a b)) /\
  (VNoNaN3 (v3_cross a a) -> VEq3 (v3_cross a a) v3_zero).
Proof.
  intros A a b. conjs.
  - intros []; unfold v3_cross, v3_neg, v3_new; cbn [vcoord3 p3x p3y p3z v3x v3y v3z]; ngs.
  - intros []; unfold v3_cross, v3_neg, v3_new; cbn [vcoord3 p3x p3y p3z v3x v3y v3z]; ngs.
  - assert (C : forall x y : num A, tx (smul x y) = tx (smul y x)) by (intros x y; rewrite !tx_mul; f_equal; destruct (tx x), (tx y); cbn [xmul]; try reflexivity; f_equal; ring).
    intros []; unfold v3_cross, v3_neg, v3_new; cbn [vcoord3 p3x p3y p3z v3x v3y v3z]; apply Same_tx; rewrite tx_neg, !tx_sub, <- xr_neg, <- xsub_anti; do 2 f_equal; rewrite 1?C; try reflexivity; apply C.
  - assert (C : forall x y : num A, NoNaN (ssub (smul x y) (smul y x)) -> Eqs (ssub (smul x y) (smul y x)) szero).
    { intros x y. rewrite NoNaN_tx, Eqs_tx, tx_sub, tx_0. assert (C : tx (smul x y) = tx (smul y x)) by (rewrite !tx_mul; f_equal; destruct (tx x), (tx y); cbn [xmul]; try reflexivity; f_equal; ring).
      rewrite C. intros H. split; [|assumption]. revert H. destruct (tx (smul y x)); cbn [xsub xneg xadd]; rewrite ?xr_xnan; try congruence. intros _. rewrite Rplus_opp_r. apply xr_0. }
    intros H d. specialize (H d). destruct d; unfold v3_cross, v3_new in *; cbn [vcoord3 p3x p3y p3z v3x v3y v3z v3_zero v3_new] in *; now apply C.
Qed.
Lemma C74_matrix_2d_pf : forall (A : arith) (m : Matrix3x3 (num A)) (v : Vector2 (num A)), VSame2 (m3_mul_vector m (v2_neg v)) (v2_neg (m3_mul_vector m v)) /\ VSame2 (v2_mul_m3 (v2_neg v) m) (v2_neg (v2_mul_m3 v m)).
Proof.
  intros A m v. split; intros []; unfold m3_mul_vector, v2_mul_m3, v2_neg, v2_new; cbn [vcoord2 p2x p2y v2x v2y]; ngs.
Qed.
Lemma C74_matrix_3d_pf : forall (A : arith) (m : Matrix4x4 (num A)) (v : Vector3 (num A)), VSame3 (m4_mul_vector m (v3_neg v)) (v3_neg (m4_mul_vector m v)) /\ VSame3 (v3_mul_m4 (v3_neg v) m) (v3_neg (v3_mul_m4 v m)).
Proof.
  intros A m v. split; intros []; unfold m4_mul_vector, v3_mul_m4, v3_neg, v3_new; cbn [vcoord3 p3x p3y p3z v3x v3y v3z]; ngs.
Qed.
Lemma C74_length_2d_pf : forall (A : arith) (a b : Vector2 (num A)), v2_length (v2_neg a) = v2_length a /\ VSame2 (v2_normalize (v2_neg a)) (v2_neg (v2_normalize a)) /\
  v2_is_shorter_than (v2_neg a) b = v2_is_shorter_than a b /\ v2_is_shorter_than a (v2_neg b) = v2_is_shorter_than a b /\
  v2_is_longer_than (v2_neg a) b = v2_is_longer_than a b /\ v2_is_longer_than a (v2_neg b) = v2_is_longer_than a b.
Proof.
  intros A a b. assert (L : forall v : Vector2 (num A), v2_length (v2_neg v) = v2_length v) by (intros v; apply C22_length_float_2d_pf).
  assert (D : forall v : Vector2 (num A), tx (v2_dot (v2_neg v) (v2_neg v)) = tx (v2_dot v v)) by (intros v; apply Same_tx, C74_dot_2d_pf).
  conjs; try apply L; try (unfold v2_is_shorter_than, v2_is_longer_than; rewrite !tx_lt, D; reflexivity).
  unfold v2_normalize. rewrite L. apply (C74_arithmetic_2d_pf A a a p2_origin p2_origin (v2_length a)).
Qed.
Lemma C74_length_3d_pf : forall (A : arith) (a b : Vector3 (num A)), v3_length (v3_neg a) = v3_length a /\ VSame3 (v3_normalize (v3_neg a)) (v3_neg (v3_normalize a)) /\
  v3_is_shorter_than (v3_neg a) b = v3_is_shorter_than a b /\ v3_is_shorter_than a (v3_neg b) = v3_is_shorter_than a b /\
  v3_is_longer_than (v3_neg a) b = v3_is_longer_than a b /\ v3_is_longer_than a (v3_neg b) = v3_is_longer_than a b.
Proof.
  intros A a b. assert (L : forall v : Vector3 (num A), v3_length (v3_neg v) = v3_length v) by (intros v; apply C22_length_float_3d_pf).
  assert (D : forall v : Vector3 (num A), tx (v3_dot (v3_neg v) (v3_neg v)) = tx (v3_dot v v)) by (intros v; apply Same_tx, C74_dot_3d_pf).
  conjs; try apply L; try (unfold v3_is_shorter_than, v3_is_longer_than; rewrite !tx_lt, D; reflexivity).
  unfold v3_normalize. rewrite L. apply (C74_arithmetic_3d_pf A a a p3_origin p3_origin (v3_length a)).
Qed.
Lemma C74_rounding_2d_pf : forall (A : arith) (v : Vector2 (num A)) (p : Point2 (num A)),
  VSame2 (v2_floor (v2_neg v)) (v2_neg (v2_ceil v)) /\ VSame2 (v2_ceil (v2_neg v)) (v2_neg (v2_floor v)) /\ VSame2 (v2_round (v2_neg v)) (v2_neg (v2_round v)) /\
  VSame2 (v2_trunc (v2_neg v)) (v2_neg (v2_trunc v)) /\ VSame2 (v2_fract (v2_neg v)) (v2_neg (v2_fract v)) /\ VSame2 (v2_abs (v2_neg v)) (v2_abs v) /\
  PSame2 (p2_floor (p2_neg p)) (p2_neg (p2_ceil p)) /\ PSame2 (p2_ceil (p2_neg p)) (p2_neg (p2_floor p)) /\ PSame2 (p2_round (p2_neg p)) (p2_neg (p2_round p)) /\
  PSame2 (p2_trunc (p2_neg p)) (p2_neg (p2_trunc p)) /\ PSame2 (p2_fract (p2_neg p)) (p2_neg (p2_fract p)) /\ PSame2 (p2_abs (p2_neg p)) (p2_abs p).
Proof.
  intros A v p. conjs; intros []; unfold v2_floor, v2_ceil, v2_round, v2_trunc, v2_fract, v2_abs, v2_neg, v2_new, p2_floor, p2_ceil, p2_round, p2_trunc, p2_fract, p2_abs, p2_neg, p2_new; cbn [vcoord2 coord2 p2x p2y v2x v2y]; ngs.
Qed.
Lemma C74_rounding_3d_pf : forall (A : arith) (v : Vector3 (num A)) (p : Point3 (num A)),
  VSame3 (v3_floor (v3_neg v)) (v3_neg (v3_ceil v)) /\ VSame3 (v3_ceil (v3_neg v)) (v3_neg (v3_floor v)) /\ VSame3 (v3_round (v3_neg v)) (v3_neg (v3_round v)) /\
  VSame3 (v3_trunc (v3_neg v)) (v3_neg (v3_trunc v)) /\ VSame3 (v3_fract (v3_neg v)) (v3_neg (v3_fract v)) /\ VSame3 (v3_abs (v3_neg v)) (v3_abs v) /\
  PSame3 (p3_floor (p3_neg p)) (p3_neg (p3_ceil p)) /\ PSame3 (p3_ceil (p3_neg p)) (p3_neg (p3_floor p)) /\ PSame3 (p3_round (p3_neg p)) (p3_neg (p3_round p)) /\
  PSame3 (p3_trunc (p3_neg p)) (p3_neg (p3_trunc p)) /\ PSame3 (p3_fract (p3_neg p)) (p3_neg (p3_fract p)) /\ PSame3 (p3_abs (p3_neg p)) (p3_abs p).
Proof.
  intros A v p. conjs; intros []; unfold v3_floor, v3_ceil, v3_round, v3_trunc, v3_fract, v3_abs, v3_neg, v3_new, p3_floor, p3_ceil, p3_round, p3_trunc, p3_fract, p3_abs, p3_neg, p3_new; cbn [vcoord3 coord3 p3x p3y p3z v3x v3y v3z]; ngs.
Qed.
Lemma C74_minmax_2d_pf : forall (A : arith) (a b : Vector2 (num A)) (p q : Point2 (num A)),
  VSame2 (v2_min (v2_neg a) (v2_neg b)) (v2_neg (v2_max a b)) /\ VSame2 (v2_max (v2_neg a) (v2_neg b)) (v2_neg (v2_min a b)) /\
  PSame2 (p2_min (p2_neg p) (p2_neg q)) (p2_neg (p2_max p q)) /\ PSame2 (p2_max (p2_neg p) (p2_neg q)) (p2_neg (p2_min p q)).
Proof.
  intros A a b p q. conjs; intros []; unfold v2_min, v2_max, v2_neg, v2_new, p2_min, p2_max, p2_neg, p2_new; cbn [vcoord2 coord2 p2x p2y v2x v2y]; ngs.
Qed.
Lemma C74_minmax_3d_pf : forall (A : arith) (a b : Vector3 (num A)) (p q : Point3 (num A)),
  VSame3 (v3_min (v3_neg a) (v3_neg b)) (v3_neg (v3_max a b)) /\ VSame3 (v3_max (v3_neg a) (v3_neg b)) (v3_neg (v3_min a b)) /\
  PSame3 (p3_min (p3_neg p) (p3_neg q)) (p3_neg (p3_max p q)) /\ PSame3 (p3_max (p3_neg p) (p3_neg q)) (p3_neg (p3_min p q)).
Proof.
  intros A a b p q. conjs; intros []; unfold v3_min, v3_max, v3_neg, v3_new, p3_min, p3_max, p3_neg, p3_new; cbn [vcoord3 coord3 p3x p3y p3z v3x v3y v3z]; ngs.
Qed.
Lemma C74_box_2d_pf : forall (A : arith) (p q r : Point2 (num A)) (b : BoundingBox2 (num A)),
  let flip (b : BoundingBox2 (num A)) := mkBB2 (p2_neg (bb2_max b)) (p2_neg (bb2_min b)) in
  let same (a b : BoundingBox2 (num A)) := PSame2 (bb2_min a) (bb2_min b) /\ PSame2 (bb2_max a) (bb2_max b) in
  same (bb2_new (p2_neg p) (p2_neg q)) (flip (bb2_new p q)) /\ same (bb2_union_point (flip b) (p2_neg r)) (flip (bb2_union_point b r)) /\
  bb2_is_inside (flip b) (p2_neg r) = bb2_is_inside b r /\ (forall d, Same (bb2_extent (flip b) d) (bb2_extent b d)).
Proof.
  intros A p q r b. cbv zeta. destruct b as [lo hi]. conjs.
  - intros []; unfold bb2_new, p2_min, p2_max, p2_neg, p2_new; cbn [bb2_min bb2_max coord2 p2x p2y v2x v2y]; ngs.
  - intros []; unfold bb2_new, p2_min, p2_max, p2_neg, p2_new; cbn [bb2_min bb2_max coord2 p2x p2y v2x v2y]; ngs.
  - intros []; unfold bb2_union_point, bb2_new, p2_min, p2_max, p2_neg, p2_new; cbn [bb2_min bb2_max coord2 p2x p2y v2x v2y]; ngs.
  - intros []; unfold bb2_union_point, bb2_new, p2_min, p2_max, p2_neg, p2_new; cbn [bb2_min bb2_max coord2 p2x p2y v2x v2y]; ngs.
  - unfold bb2_is_inside, p2_neg, p2_new; cbn [bb2_min bb2_max p2x p2y v2x v2y]. rewrite !tx_le, !tx_neg, !xle_neg. btauto.
  - assert (C : forall x y : num A, Same (ssub (sneg x) (sneg y)) (ssub y x)).
    { intros x y. apply Same_tx. rewrite !tx_sub, !tx_neg. f_equal. destruct (tx x), (tx y); cbn; try reflexivity. f_equal. ring. }
    intros []; unfold bb2_extent, bb2_width, bb2_height,  p2_neg, p2_new; cbn [bb2_min bb2_max coord2 p2x p2y v2x v2y]; apply C.
Qed.
Lemma C74_box_3d_pf : forall (A : arith) (p q r : Point3 (num A)) (b : BoundingBox3 (num A)),
  let flip (b : BoundingBox3 (num A)) := mkBB3 (p3_neg (bb3_max b)) (p3_neg (bb3_min b)) in
  let same (a b : BoundingBox3 (num A)) := PSame3 (bb3_min a) (bb3_min b) /\ PSame3 (bb3_max a) (bb3_max b) in
  same (bb3_new (p3_neg p) (p3_neg q)) (flip (bb3_new p q)) /\ same (bb3_union_point (flip b) (p3_neg r)) (flip (bb3_union_point b r)) /\
  bb3_is_inside (flip b) (p3_neg r) = bb3_is_inside b r /\ (forall d, Same (bb3_extent (flip b) d) (bb3_extent b d)).
Proof.
  intros A p q r b. cbv zeta. destruct b as [lo hi]. conjs.
  - intros []; unfold bb3_new, p3_min, p3_max, p3_neg, p3_new; cbn [bb3_min bb3_max coord3 p3x p3y p3z v3x v3y v3z]; ngs.
  - intros []; unfold bb3_new, p3_min, p3_max, p3_neg, p3_new; cbn [bb3_min bb3_max coord3 p3x p3y p3z v3x v3y v3z]; ngs.
  - intros []; unfold bb3_union_point, bb3_new, p3_min, p3_max, p3_neg, p3_new; cbn [bb3_min bb3_max coord3 p3x p3y p3z v3x v3y v3z]; ngs.
  - intros []; unfold bb3_union_point, bb3_new, p3_min, p3_max, p3_neg, p3_new; cbn [bb3_min bb3_max coord3 p3x p3y p3z v3x v3y v3z]; ngs.
  - unfold bb3_is_inside, p3_neg, p3_new; cbn [bb3_min bb3_max p3x p3y p3z v3x v3y v3z]. rewrite !tx_le, !tx_neg, !xle_neg. btauto.
  - assert (C : forall x y : num A, Same (ssub (sneg x) (sneg y)) (ssub y x)).
    { intros x y. apply Same_tx. rewrite !tx_sub, !tx_neg. f_equal. destruct (tx x), (tx y); cbn; try reflexivity. f_equal. ring. }
    intros []; unfold bb3_extent, bb3_width, bb3_height, bb3_depth, p3_neg, p3_new; cbn [bb3_min bb3_max coord3 p3x p3y p3z v3x v3y v3z]; apply C.
Qed.
Lemma C74_ray_2d_pf : forall (A : arith) (o : Point2 (num A)) (d : Vector2 (num A)) (t : num A), PSame2 (r2_at (mkRay2 o (v2_neg d)) (sneg t)) (r2_at (mkRay2 o d) t).
Proof.
  intros A o d t. intros []; unfold r2_at, p2_add, v2_mul, v2_neg, v2_new, p2_new; cbn [r2_origin r2_direction coord2 p2x p2y v2x v2y]; ngs.
Qed.
Lemma C74_ray_3d_pf : forall (A : arith) (o : Point3 (num A)) (d : Vector3 (num A)) (t : num A), PSame3 (r3_at (mkRay3 o (v3_neg d)) (sneg t)) (r3_at (mkRay3 o d) t).
Proof.
  intros A o d t. intros []; unfold r3_at, p3_add, v3_mul, v3_neg, v3_new, p3_new; cbn [r3_origin r3_direction coord3 p3x p3y p3z v3x v3y v3z]; ngs.
Qed.
