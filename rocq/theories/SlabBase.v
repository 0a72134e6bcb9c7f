(** One axis of the ray-box test, in every arithmetic (proof device). *)
From Coq Require Import Bool ZArith Reals Lra Lia.
From Flocq Require Import Core.Zaux Core.Raux Core.Defs Core.Generic_fmt Core.FLT Core.Float_prop Core.Round_NE IEEE754.BinarySingleNaN.
From Flocq Require Import Plus_error.
From Verif Require Import Scalar Types Float XReal OrdLaws Arith SpecOrder OrderProofs SpecFloat FloatX XArith FloatLaws.
Local Open Scope R_scope.

Section A.
Context {A : arith}.
Implicit Types x y o lo hi s e : num A.
Notation L := (num_OrdLaws A).

Lemma tx_smin x y : tx (s_min x y) = xmin (tx x) (tx y).
Proof.
  destruct (scalar_min_law L x y) as (_ & _ & N1 & N2). unfold xmin. rewrite <- !tx_nan.
  destruct (snan x) eqn:Nx; [rewrite N1; [reflexivity | unfold NoNaN; congruence]|].
  destruct (snan y) eqn:Ny; [rewrite N2; [reflexivity | unfold NoNaN; congruence | assumption]|].
  destruct (min_spec L x y Nx Ny) as [[-> H]|[-> H]]; apply Le_tx in H.
  - now rewrite H.
  - destruct (xle (tx x) (tx y)) eqn:E; [|reflexivity]. symmetry. apply xeq_eq. unfold xeq. now rewrite E, H.
Qed.
Lemma tx_smax x y : tx (s_max x y) = xmax (tx x) (tx y).
Proof.
  destruct (scalar_max_law L x y) as (_ & _ & N1 & N2). unfold xmax. rewrite <- !tx_nan.
  destruct (snan x) eqn:Nx; [rewrite N1; [reflexivity | unfold NoNaN; congruence]|].
  destruct (snan y) eqn:Ny; [rewrite N2; [reflexivity | unfold NoNaN; congruence | assumption]|].
  destruct (max_spec L x y Nx Ny) as [[-> H]|[-> H]]; apply Le_tx in H.
  - destruct (xle (tx x) (tx y)) eqn:E; [|reflexivity]. apply xeq_eq. unfold xeq. now rewrite E, H.
  - now rewrite H.
Qed.

(* division by a zero: its sign decides the direction of every quotient *)
Definition zq (b : bool) (x : xreal) : xreal :=
  let q := match x with Fin a => xsigned_inf a | _ => x end in if b then q else xneg q.
Lemma div_zero d : tx d = Fin 0 -> exists b, forall x, tx (sdiv x d) = zq b (tx x).
Proof.
  revert d. destruct A as [f P|]; intros d H.
  - cbn in d. destruct d as [sd|[]| |sd md ed Hd]; try discriminate.
    + exists (negb sd). intros x. cbn in x. destruct x as [sx|[]| |sx mx ex Hx]; destruct sd; try reflexivity.
      * destruct sx; cbn -[xsigned_inf B2R]; cbn [B2R]; unfold xsigned_inf; rewrite !Rlt_bool_false by lra; reflexivity.
      * destruct sx; cbn -[xsigned_inf B2R]; cbn [B2R]; unfold xsigned_inf; rewrite !Rlt_bool_false by lra; reflexivity.
      * destruct sx; cbn -[xsigned_inf B2R].
        -- assert (N : B2R (B754_finite true mx ex Hx) < 0) by (now apply F2R_lt_0). unfold xsigned_inf. rewrite Rlt_bool_false, Rlt_bool_true by lra. reflexivity.
        -- assert (N : 0 < B2R (B754_finite false mx ex Hx)) by (now apply F2R_gt_0). unfold xsigned_inf. rewrite Rlt_bool_true by lra. reflexivity.
      * destruct sx; cbn -[xsigned_inf B2R].
        -- assert (N : B2R (B754_finite true mx ex Hx) < 0) by (now apply F2R_lt_0). unfold xsigned_inf. rewrite Rlt_bool_false, Rlt_bool_true by lra. reflexivity.
        -- assert (N : 0 < B2R (B754_finite false mx ex Hx)) by (now apply F2R_gt_0). unfold xsigned_inf. rewrite Rlt_bool_true by lra. reflexivity.
    + exfalso. change (toX (B754_finite sd md ed Hd) = Fin 0) in H. apply toX_fin_iff in H. destruct H as [_ H]. destruct sd.
      * assert (N : B2R (B754_finite true md ed Hd) < 0) by (now apply F2R_lt_0). lra.
      * assert (N : 0 < B2R (B754_finite false md ed Hd)) by (now apply F2R_gt_0). lra.
  - exists true. intros x. change (d = Fin 0) in H. subst d. change (xdiv x (Fin 0) = zq true x). destruct x as [a| | |]; unfold xdiv, zq; [now rewrite Req_bool_true | now rewrite Rlt_bool_false by lra | now rewrite Rlt_bool_false by lra | reflexivity]. 
Qed.
(* a difference has the sign of the comparison: no underflow to zero *)
Lemma sub_neg x o r : tx o = Fin r -> xlt (tx x) (Fin r) = true -> xlt (tx (ssub x o)) (Fin 0) = true.
Proof.
  intros E H. rewrite tx_sub, E. destruct (tx x) as [a| | |] eqn:Ex; try discriminate; cbn [xsub xneg xadd].
  - apply xlt_fin in H. revert x o E Ex. destruct A as [f P|]; cbn [xr]; intros.
    + destruct (repr_tx f P x a Ex) as [Ra _]. destruct (repr_tx f P o r E) as [Rr _].
      assert (N : rnd f (a + - r) <> 0).
      { unfold rnd. apply round_plus_neq_0; first [assumption | now apply repr_opp | lra | apply valid_rnd_N | apply fexp_valid | idtac].
        apply monotone_exp_not_FTZ; auto with typeclass_instances. }
      assert (rnd f (a + - r) <= 0) by (rewrite <- (rnd_0 f); apply rnd_mono; lra).
      pose proof (fmax_pos f). destruct (xround_cases f (a + - r)); [apply xlt_fin; lra | try reflexivity; exfalso; lra | try reflexivity; exfalso; lra].
    + apply xlt_fin. lra.
  - rewrite xr_ninf. reflexivity.
Qed.
Lemma sub_pos x o r : tx o = Fin r -> xlt (Fin r) (tx x) = true -> xlt (Fin 0) (tx (ssub x o)) = true.
Proof.
  intros E H. rewrite tx_sub, E. destruct (tx x) as [a| | |] eqn:Ex; try discriminate; cbn [xsub xneg xadd].
  - apply xlt_fin in H. revert x o E Ex. destruct A as [f P|]; cbn [xr]; intros.
    + destruct (repr_tx f P x a Ex) as [Ra _]. destruct (repr_tx f P o r E) as [Rr _].
      assert (N : rnd f (a + - r) <> 0).
      { unfold rnd. apply round_plus_neq_0; first [assumption | now apply repr_opp | lra | apply valid_rnd_N | apply fexp_valid | idtac].
        apply monotone_exp_not_FTZ; auto with typeclass_instances. }
      assert (0 <= rnd f (a + - r)) by (rewrite <- (rnd_0 f); apply rnd_mono; lra).
      pose proof (fmax_pos f). destruct (xround_cases f (a + - r)); [apply xlt_fin; lra | try reflexivity; exfalso; lra | try reflexivity; exfalso; lra].
    + apply xlt_fin. lra.
  - rewrite xr_pinf. reflexivity.
Qed.
Lemma zq_pos b (x : xreal) : xlt (Fin 0) x = true -> zq b x = if b then PInf else NInf.
Proof. destruct x as [a| | |]; try discriminate; intros H; unfold zq; [apply xlt_fin in H; unfold xsigned_inf; rewrite Rlt_bool_true by assumption|]; destruct b; reflexivity. Qed.
Lemma zq_neg b (x : xreal) : xlt x (Fin 0) = true -> zq b x = if b then NInf else PInf.
Proof. destruct x as [a| | |]; try discriminate; intros H; unfold zq; [apply xlt_fin in H; unfold xsigned_inf; rewrite Rlt_bool_false, Rlt_bool_true by lra|]; destruct b; reflexivity. Qed.

(* quotients by a non-zero finite divisor are monotone *)
Lemma xsub_mono_l (x y : xreal) r : xle x y = true -> xle (xsub x (Fin r)) (xsub y (Fin r)) = true.
Proof. destruct x, y; try discriminate; cbn [xsub xneg xadd]; try reflexivity. rewrite !xle_fin. lra. Qed.
Lemma xdiv_mono_pos (x y : xreal) r : 0 < r -> xle x y = true -> xle (xdiv x (Fin r)) (xdiv y (Fin r)) = true.
Proof.
  intros R0 H. destruct x, y; try discriminate; cbn [xdiv]; rewrite ?Req_bool_false, ?Rlt_bool_false by lra; try reflexivity.
  apply xle_fin in H. apply xle_fin. apply Rmult_le_compat_r; [left; now apply Rinv_0_lt_compat | assumption].
Qed.
Lemma xdiv_mono_neg (x y : xreal) r : r < 0 -> xle x y = true -> xle (xdiv y (Fin r)) (xdiv x (Fin r)) = true.
Proof.
  intros R0 H. destruct x, y; try discriminate; cbn [xdiv]; rewrite ?Req_bool_false, ?Rlt_bool_true by lra; try reflexivity.
  apply xle_fin in H. apply xle_fin. unfold Rdiv. assert (/ r < 0) by now apply Rinv_lt_0_compat. nra.
Qed.
Lemma quo_mono_pos x y o d r q : tx o = Fin q -> tx d = Fin r -> 0 < r -> Le x y -> Le (sdiv (ssub x o) d) (sdiv (ssub y o) d).
Proof.
  intros Eo Ed R0 H. apply Le_tx in H. apply Le_tx. rewrite !tx_div by (rewrite Ed; intros K; injection K; lra).
  rewrite !tx_sub, Eo, Ed. apply xr_mono, xdiv_mono_pos; [assumption|]. apply xr_mono, xsub_mono_l, H.
Qed.
Lemma quo_mono_neg x y o d r q : tx o = Fin q -> tx d = Fin r -> r < 0 -> Le x y -> Le (sdiv (ssub y o) d) (sdiv (ssub x o) d).
Proof.
  intros Eo Ed R0 H. apply Le_tx in H. apply Le_tx. rewrite !tx_div by (rewrite Ed; intros K; injection K; lra).
  rewrite !tx_sub, Eo, Ed. apply xr_mono, xdiv_mono_neg; [assumption|]. apply xr_mono, xsub_mono_l, H.
Qed.
(* infinite divisor: 0 or NaN *)
Lemma quo_inf x d : tx d = PInf \/ tx d = NInf -> tx (sdiv x d) = Fin 0 \/ tx (sdiv x d) = XNaN.
Proof.
  intros H. rewrite tx_div by (destruct H as [-> | ->]; discriminate). destruct H as [-> | ->]; destruct (tx x); cbn [xdiv]; rewrite ?xr_0, ?xr_xnan; auto.
Qed.
Lemma quo_nan x d : tx d = XNaN -> tx (sdiv x d) = XNaN.
Proof. intros H. rewrite tx_div by (rewrite H; discriminate). rewrite H. destruct (tx x); cbn [xdiv]; apply xr_xnan. Qed.
Lemma quo_self o d r : tx o = Fin r -> tx (sdiv (ssub o o) d) = Fin 0 \/ tx (sdiv (ssub o o) d) = XNaN.
Proof.
  intros E. assert (Z : tx (ssub o o) = Fin 0). { rewrite tx_sub, E. cbn. replace (r + - r) with 0 by ring. apply xr_0. }
  destruct (tx d) as [a| | |] eqn:Ed; [|now apply quo_inf; auto..| right; now apply quo_nan].
  destruct (Req_dec a 0) as [->|N].
  - right. destruct (div_zero d Ed) as [b H]. rewrite H, Z. unfold zq, xsigned_inf. rewrite !Rlt_bool_false by lra. destruct b; reflexivity.
  - left. rewrite tx_div by (rewrite Ed; congruence). rewrite Z, Ed. cbn [xdiv]. rewrite Req_bool_false by assumption.
    unfold Rdiv. rewrite Rmult_0_l. apply xr_0.
Qed.

(** ** How a slab moves the interval *)
Lemma zero_NoNaN : NoNaN (szero : num A). Proof. exact (ol_zero_nan _ L). Qed.
Lemma NoNaN_dec x : NoNaN x \/ ~ NoNaN x.
Proof. unfold NoNaN. destruct (snan x); [right; discriminate | now left]. Qed.
Lemma max_nan s x : NoNaN s -> ~ NoNaN x -> s_max s x = s.
Proof. intros H N. now apply (scalar_max_law L s x). Qed.
Lemma min_nan s x : NoNaN s -> ~ NoNaN x -> s_min s x = s.
Proof. intros H N. now apply (scalar_min_law L s x). Qed.
Lemma max_ge s x : NoNaN s -> Le s (s_max s x).
Proof. intros H. destruct (NoNaN_dec x) as [Hx|Hx]; [now apply (max_ub1 L) | rewrite max_nan by assumption; now apply (Le_refl L)]. Qed.
Lemma min_le s x : NoNaN s -> Le (s_min s x) s.
Proof. intros H. destruct (NoNaN_dec x) as [Hx|Hx]; [now apply (min_lb1 L) | rewrite min_nan by assumption; now apply (Le_refl L)]. Qed.
(* a start is not raised above another *)
Lemma max_rel s s' x y : Le szero s -> Le s s' -> (~ NoNaN x \/ Le x szero \/ Le x y) -> Le (s_max s x) (s_max s' y).
Proof.
  intros H0 H R. pose proof (Le_nan L _ _ H) as [N N'].
  assert (G : Le (s_max s x) s' -> Le (s_max s x) (s_max s' y)) by (intros Q; eapply (Le_trans L); [exact Q | now apply max_ge]).
  destruct R as [R|[R|R]].
  - apply G. now rewrite max_nan.
  - apply G. apply (max_lub L); [assumption|]. eapply (Le_trans L); [exact R|]. eapply (Le_trans L); eassumption.
  - pose proof (Le_nan L _ _ R) as [Nx Ny]. apply (max_lub L).
    + eapply (Le_trans L); [exact H | now apply (max_ub1 L)].
    + eapply (Le_trans L); [exact R | now apply (max_ub2 L)].
Qed.
Lemma min_rel e e' x y : Le e e' -> (~ NoNaN y \/ Le sinf y \/ Le x y) -> Le (s_min e x) (s_min e' y).
Proof.
  intros H R. pose proof (Le_nan L _ _ H) as [N N'].
  assert (G : Le e (s_min e' y) -> Le (s_min e x) (s_min e' y)) by (intros Q; eapply (Le_trans L); [now apply min_le | exact Q]).
  destruct R as [R|[R|R]].
  - apply G. now rewrite min_nan.
  - apply G. apply (min_glb L); [assumption|]. eapply (Le_trans L); [|exact R]. now apply (Le_inf L).
  - pose proof (Le_nan L _ _ R) as [Nx Ny]. apply (min_glb L).
    + eapply (Le_trans L); [now apply (min_lb1 L) | exact H].
    + eapply (Le_trans L); [now apply (min_lb2 L) | exact R].
Qed.
Lemma max_zero s x : Eqs s szero -> (~ NoNaN x \/ Le x szero) -> Eqs (s_max s x) szero.
Proof.
  intros H R. apply (Eqs_iff L) in H. destruct H as [H1 H2]. pose proof (Le_nan L _ _ H1) as [N _]. apply (Eqs_iff L). split.
  - destruct R as [R|R]; [now rewrite max_nan | now apply (max_lub L)].
  - eapply (Le_trans L); [exact H2 | now apply max_ge].
Qed.
Lemma min_nneg e x : Le szero e -> (~ NoNaN x \/ Le szero x) -> Le szero (s_min e x).
Proof.
  intros H R. pose proof (Le_nan L _ _ H) as [_ N]. destruct R as [R|R]; [now rewrite min_nan | now apply (min_glb L)].
Qed.

Definition near lo hi o d : num A := s_min (sdiv (ssub lo o) d) (sdiv (ssub hi o) d).
Definition far lo hi o d : num A := s_max (sdiv (ssub lo o) d) (sdiv (ssub hi o) d).

Lemma NoNaN_txn x : tx x = XNaN -> ~ NoNaN x.
Proof. intros H N. apply NoNaN_tx in N. now apply N. Qed.

(* the slab of an origin between the faces *)
Lemma slab_inside lo hi o d : Finite o -> Le lo o -> Le o hi -> (Eqs d szero -> Lt lo o /\ Lt o hi) ->
  (~ NoNaN (near lo hi o d) \/ Le (near lo hi o d) szero) /\ (~ NoNaN (far lo hi o d) \/ Le szero (far lo hi o d)).
Proof.
  intros F L1 L2 S. apply Finite_tx in F. destruct F as [r Eo].
  assert (K : forall q1 q2 : num A, near lo hi o d = s_min q1 q2 -> far lo hi o d = s_max q1 q2 ->
    (tx q1 = XNaN /\ tx q2 = XNaN) \/ (tx q1 = XNaN /\ tx q2 = Fin 0) \/ (tx q1 = Fin 0 /\ tx q2 = XNaN) \/
    (xle (tx q1) (Fin 0) = true /\ xle (Fin 0) (tx q2) = true) \/ (xle (tx q2) (Fin 0) = true /\ xle (Fin 0) (tx q1) = true) ->
    (~ NoNaN (near lo hi o d) \/ Le (near lo hi o d) szero) /\ (~ NoNaN (far lo hi o d) \/ Le szero (far lo hi o d))).
  { intros q1 q2 -> -> H. assert (Z : xle (Fin 0) (Fin 0) = true) by (apply xle_fin; lra).
    destruct H as [[H1 H2]|[[H1 H2]|[[H1 H2]|H]]].
    - split; left; apply NoNaN_txn; rewrite ?tx_smin, ?tx_smax, H1, H2; reflexivity.
    - split; right; apply Le_tx; rewrite ?tx_smin, ?tx_smax, H1, H2, tx_0; exact Z.
    - split; right; apply Le_tx; rewrite ?tx_smin, ?tx_smax, H1, H2, tx_0; exact Z.
    - assert (N1 : NoNaN q1 /\ NoNaN q2).
      { destruct H as [[H1 H2]|[H1 H2]]; apply xle_nan in H1, H2; unfold NoNaN; rewrite !tx_nan; tauto. }
      destruct N1 as [N1 N2]. rewrite <- (tx_0 (A := A)), <- !Le_tx in H. destruct H as [[H1 H2]|[H1 H2]]; split; right.
      + eapply (Le_trans L); [now apply (min_lb1 L) | exact H1].
      + eapply (Le_trans L); [exact H2 | now apply (max_ub2 L)].
      + eapply (Le_trans L); [now apply (min_lb2 L) | exact H1].
      + eapply (Le_trans L); [exact H2 | now apply (max_ub1 L)]. }
  eapply K; [reflexivity | reflexivity |]. clear K.
  destruct (tx d) as [a| | |] eqn:Ed.
  - destruct (Rtotal_order a 0) as [N|[->|N]].
    + pose proof (quo_mono_neg lo o o d a r Eo Ed N L1) as H1. pose proof (quo_mono_neg o hi o d a r Eo Ed N L2) as H2.
      apply Le_tx in H1, H2. destruct (quo_self o d r Eo) as [Z|Z]; rewrite Z in H1, H2; [tauto | discriminate].
    + assert (Q : Eqs d szero) by (apply Eqs_tx; rewrite Ed, tx_0; split; [reflexivity | discriminate]).
      destruct (S Q) as [S1 S2]. apply Lt_tx in S1, S2. rewrite Eo in S1, S2.
      destruct (div_zero d Ed) as [b D]. rewrite !D. rewrite (zq_neg b) by now apply sub_neg with r. rewrite (zq_pos b) by now apply sub_pos with r.
      destruct b; cbn; tauto.
    + pose proof (quo_mono_pos lo o o d a r Eo Ed N L1) as H1. pose proof (quo_mono_pos o hi o d a r Eo Ed N L2) as H2.
      apply Le_tx in H1, H2. destruct (quo_self o d r Eo) as [Z|Z]; rewrite Z in H1, H2; [tauto | discriminate].
  - destruct (quo_inf (ssub lo o) d (or_introl Ed)) as [-> | ->], (quo_inf (ssub hi o) d (or_introl Ed)) as [-> | ->]; try tauto.
    right. right. right. left. split; apply xle_fin; lra.
  - destruct (quo_inf (ssub lo o) d (or_intror Ed)) as [-> | ->], (quo_inf (ssub hi o) d (or_intror Ed)) as [-> | ->]; try tauto.
    right. right. right. left. split; apply xle_fin; lra.
  - left. split; now apply quo_nan.
Qed.

(* the slab of a larger box *)
Lemma slab_mono lo hi lo' hi' o d : Finite o -> Finite d -> Le lo' lo -> Le lo hi -> Le hi hi' -> (Eqs d szero -> ~ Eqs o lo' /\ ~ Eqs o hi') ->
  (~ NoNaN (near lo' hi' o d) \/ Le (near lo' hi' o d) szero \/ Le (near lo' hi' o d) (near lo hi o d)) /\
  (~ NoNaN (far lo' hi' o d) \/ Le sinf (far lo' hi' o d) \/ Le (far lo hi o d) (far lo' hi' o d)).
Proof.
  intros F Fd L1 L2 L3 S. apply Finite_tx in F, Fd. destruct F as [r Eo], Fd as [a Ed].
  destruct (Rtotal_order a 0) as [N|[->|N]].
  - pose proof (quo_mono_neg _ _ o d a r Eo Ed N L1) as H1. pose proof (quo_mono_neg _ _ o d a r Eo Ed N L2) as H2. pose proof (quo_mono_neg _ _ o d a r Eo Ed N L3) as H3.
    pose proof (Le_nan L _ _ H1) as [? ?]. pose proof (Le_nan L _ _ H3) as [? ?]. split; right; right; unfold near, far.
    + apply (min_glb L); eapply (Le_trans L); [now apply (min_lb2 L) | eapply (Le_trans L); eassumption | now apply (min_lb2 L) | assumption].
    + apply (max_lub L); eapply (Le_trans L); [| now apply (max_ub1 L) | | now apply (max_ub1 L)]; [assumption | eapply (Le_trans L); eassumption].
  - assert (Q : Eqs d szero) by (apply Eqs_tx; rewrite Ed, tx_0; split; [reflexivity | discriminate]).
    destruct (S Q) as [S1 S2]. destruct (div_zero d Ed) as [b D].
    assert (No : NoNaN o) by (apply NoNaN_tx; rewrite Eo; discriminate).
    assert (T : forall x, NoNaN x -> ~ Eqs o x -> Lt o x \/ Lt x o).
    { intros x Nx E. destruct (Le_total L o x No Nx) as [H|H]; [left | right]; apply (Lt_iff L); repeat split; try assumption; intros K; apply E; apply (Eqs_iff L); split; assumption. }
    pose proof (Le_nan L _ _ L1) as [N1 N2]. pose proof (Le_nan L _ _ L3) as [N3 N4].
    assert (PO : forall x, Lt o x -> tx (sdiv (ssub x o) d) = if b then PInf else NInf).
    { intros x H. apply Lt_tx in H. rewrite Eo in H. rewrite D. apply zq_pos. now apply sub_pos with r. }
    assert (NE : forall x, Lt x o -> tx (sdiv (ssub x o) d) = if b then NInf else PInf).
    { intros x H. apply Lt_tx in H. rewrite Eo in H. rewrite D. apply zq_neg. now apply sub_neg with r. }
    assert (LT1 : forall x y, Lt o x -> Le x y -> Lt o y).
    { intros x y H H'. apply (Lt_iff L) in H. destruct H as (? & ? & H). apply (Lt_iff L). pose proof (Le_nan L _ _ H') as [? ?]. repeat split; try assumption. intros K. apply H. now apply (Le_trans L) with y. }
    assert (LT2 : forall x y, Lt y o -> Le x y -> Lt x o).
    { intros x y H H'. apply (Lt_iff L) in H. destruct H as (? & ? & H). apply (Lt_iff L). pose proof (Le_nan L _ _ H') as [? ?]. repeat split; try assumption. intros K. apply H. now apply (Le_trans L) with x. }
    destruct (T lo' N1 S1) as [B1|B1].
    + pose proof (LT1 _ _ B1 L1) as B2. pose proof (LT1 _ _ B2 L2) as B3. pose proof (LT1 _ _ B3 L3) as B4.
      split; right; right; apply Le_tx; unfold near, far; rewrite ?tx_smin, ?tx_smax, (PO _ B1), (PO _ B2), (PO _ B3), (PO _ B4); destruct b; reflexivity.
    + destruct (T hi' N4 S2) as [B4|B4].
      * split; right; left; apply Le_tx; unfold near, far; rewrite ?tx_smin, ?tx_smax, ?tx_inf, ?tx_0, (NE _ B1), (PO _ B4); destruct b; reflexivity.
      * pose proof (LT2 _ _ B4 L3) as B3. pose proof (LT2 _ _ B3 L2) as B2.
        split; right; right; apply Le_tx; unfold near, far; rewrite ?tx_smin, ?tx_smax, (NE _ B1), (NE _ B2), (NE _ B3), (NE _ B4); destruct b; reflexivity.
  - pose proof (quo_mono_pos _ _ o d a r Eo Ed N L1) as H1. pose proof (quo_mono_pos _ _ o d a r Eo Ed N L2) as H2. pose proof (quo_mono_pos _ _ o d a r Eo Ed N L3) as H3.
    pose proof (Le_nan L _ _ H1) as [? ?]. pose proof (Le_nan L _ _ H3) as [? ?]. split; right; right; unfold near, far.
    + apply (min_glb L); eapply (Le_trans L); [now apply (min_lb1 L) | assumption | now apply (min_lb1 L) | eapply (Le_trans L); eassumption].
    + apply (max_lub L); eapply (Le_trans L); [| now apply (max_ub2 L) | | now apply (max_ub2 L)]; [eapply (Le_trans L); eassumption | assumption].
Qed.
End A.
