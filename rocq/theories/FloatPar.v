(** Proofs: rays that do not move along an axis (C96). *)
From Coq Require Import Bool NArith ZArith Reals List Lra Lia.
From Flocq Require Import Core.Zaux Core.Raux.
From Verif Require Import Scalar Types Vector2 Vector3 Point2 Point3 Ray BoundingBox2 BoundingBox3 Float
  XReal OrdLaws Arith SpecOrder SpecFloat SpecSame SpecPar OrderProofs FloatX XArith FloatLaws SlabBase FloatRay FloatSym ExVals.
Import ListNotations.
Local Open Scope R_scope.
Lemma xmin_NI_r a : xmin a NInf = NInf. Proof. destruct a; reflexivity. Qed.
Lemma xmin_NI_l a : xmin NInf a = NInf. Proof. destruct a; reflexivity. Qed.
Lemma xmax_PI_r a : xmax a PInf = PInf. Proof. destruct a; reflexivity. Qed.
Lemma xmax_PI_l a : xmax PInf a = PInf. Proof. destruct a; reflexivity. Qed.
Lemma xmax_pos a b : xle (Fin 0) a = true -> xle (Fin 0) (xmax a b) = true.
Proof. intros H. pose proof (xle_nan _ _ H) as [_ N]. eapply xle_trans; [exact H | now apply xmax_ge]. Qed.
Section P.
Context {A : arith}.
Implicit Types lo hi o d : num A.
Lemma Eqs_fin lo o r : tx o = Fin r -> Eqs lo o -> tx lo = Fin r.
Proof. intros E H. apply Eqs_tx in H. destruct H as [H _]. congruence. Qed.
Lemma zero_sign d : Eqs d szero -> exists b, (forall x, tx (sdiv x d) = zq b (tx x)) /\ (if b then PosZero d else NegZero d).
Proof.
  intros Z. pose proof Z as Z0. apply Eqs_tx in Z. rewrite tx_0 in Z. destruct Z as [Z _]. destruct (div_zero d Z) as [b H]. exists b. split; [exact H|].
  assert (Q : tx (sdiv sone d) = if b then PInf else NInf) by (rewrite H, tx_1; apply zq_pos, xlt_fin; lra).
  destruct b; (split; [exact Z0|]); apply Eqs_tx; rewrite Q, ?tx_inf, ?tx_ninf; split; [reflexivity | discriminate | reflexivity | discriminate].
Qed.
Lemma pos_not_neg d : PosZero d -> ~ NegZero d.
Proof. intros [_ H] [_ K]. apply Eqs_tx in H, K. rewrite tx_inf in H. rewrite tx_ninf in K. destruct H as [H _], K as [K _]. congruence. Qed.
Lemma fin_self o r b : tx o = Fin r -> zq b (tx (ssub o o)) = XNaN.
Proof.
  intros E. rewrite tx_sub, E. cbn [xsub xneg xadd]. replace (r + - r) with 0 by ring. rewrite xr_0. unfold zq, xsigned_inf. rewrite !Rlt_bool_false by lra. destruct b; reflexivity.
Qed.
Lemma q_pos lo o d r b : tx o = Fin r -> (forall x, tx (sdiv x d) = zq b (tx x)) -> Lt o lo -> tx (sdiv (ssub lo o) d) = if b then PInf else NInf.
Proof. intros E H K. rewrite H. apply zq_pos. apply (sub_pos _ _ r E). apply Lt_tx in K. now rewrite E in K. Qed.
Lemma q_neg lo o d r b : tx o = Fin r -> (forall x, tx (sdiv x d) = zq b (tx x)) -> Lt lo o -> tx (sdiv (ssub lo o) d) = if b then NInf else PInf.
Proof. intros E H K. rewrite H. apply zq_neg. apply (sub_neg _ _ r E). apply Lt_tx in K. now rewrite E in K. Qed.
Lemma q_nan lo o d r b : tx o = Fin r -> (forall x, tx (sdiv x d) = zq b (tx x)) -> tx lo = Fin r -> tx (sdiv (ssub lo o) d) = XNaN.
Proof.
  intros E H K. rewrite H. rewrite tx_sub, E, K. cbn [xsub xneg xadd]. replace (r + - r) with 0 by ring. rewrite xr_0. unfold zq, xsigned_inf. rewrite !Rlt_bool_false by lra. destruct b; reflexivity.
Qed.
Lemma Le_cases lo o r : tx o = Fin r -> Le lo o -> Lt lo o \/ tx lo = Fin r.
Proof.
  intros E H. apply Le_tx in H. rewrite E in H. destruct (tx lo) as [a| | |] eqn:El; try discriminate.
  - apply xle_fin in H. destruct H as [H|H]; [left; apply Lt_tx; rewrite E, El; now apply xlt_fin | right; now rewrite H].
  - left. apply Lt_tx. rewrite E, El. reflexivity.
Qed.
Lemma Ge_cases lo o r : tx o = Fin r -> Le o lo -> Lt o lo \/ tx lo = Fin r.
Proof.
  intros E H. apply Le_tx in H. rewrite E in H. destruct (tx lo) as [a| | |] eqn:El; try discriminate.
  - apply xle_fin in H. destruct H as [H|H]; [left; apply Lt_tx; rewrite E, El; now apply xlt_fin | right; now rewrite H].
  - left. apply Lt_tx. rewrite E, El. reflexivity.
Qed.
Lemma par_between lo hi o d : Finite o -> Eqs d szero -> Between lo o hi ->
  (tx (near lo hi o d) = NInf /\ tx (far lo hi o d) = PInf) \/ (tx (near lo hi o d) = XNaN /\ tx (far lo hi o d) = XNaN).
Proof.
  intros F Z B. apply Finite_tx in F. destruct F as [r E]. destruct (zero_sign d Z) as (b & H & _). unfold near, far. rewrite tx_smin, tx_smax. destruct B as [[B1 B2]|[B1 B2]].
  - left. rewrite (q_neg lo o d r b E H B1), (q_pos hi o d r b E H B2). destruct b; split; reflexivity.
  - right. assert (B3 : tx hi = Fin r) by (apply Eqs_tx in B2; destruct B2 as [B2 _]; congruence).
    rewrite (q_nan lo o d r b E H (Eqs_fin _ _ _ E B1)), (q_nan hi o d r b E H B3). split; reflexivity.
Qed.
Lemma par_out (b : bool) lo hi o d : Finite o -> (if b then PosZero d else NegZero d) -> Below lo o hi \/ Above lo o hi ->
  exists q, (q = PInf \/ q = NInf) /\ tx (near lo hi o d) = q /\ tx (far lo hi o d) = q /\ (Below lo o hi -> q = if b then PInf else NInf) /\ (Above lo o hi -> q = if b then NInf else PInf).
Proof.
  intros F Z B. apply Finite_tx in F. destruct F as [r E]. assert (Z0 : Eqs d szero) by (destruct b; apply Z). destruct (zero_sign d Z0) as (b' & H & Z').
  assert (b' = b) by (destruct b, b'; try reflexivity; exfalso; [exact (pos_not_neg _ Z Z') | exact (pos_not_neg _ Z' Z)]). subst b'. clear Z'. unfold near, far. rewrite !tx_smin, !tx_smax.
  assert (X : Below lo o hi -> Above lo o hi -> False).
  { intros [_ X1] [X2 _]. apply (Lt_iff (num_OrdLaws A)) in X1. tauto. }
  destruct B as [B|B].
  - exists (if b then PInf else NInf). pose proof B as [B1 B2]. rewrite (q_pos hi o d r b E H B2).
    destruct (Ge_cases lo o r E B1) as [B3|B3]; [rewrite (q_pos lo o d r b E H B3) | rewrite (q_nan lo o d r b E H B3)]; destruct b; repeat split; tauto.
  - exists (if b then NInf else PInf). pose proof B as [B1 B2]. rewrite (q_neg lo o d r b E H B2).
    destruct (Le_cases hi o r E B1) as [B3|B3]; [rewrite (q_neg hi o d r b E H B3) | rewrite (q_nan hi o d r b E H B3)]; destruct b; repeat split; tauto.
Qed.
Lemma par_ahead lo hi o d : Finite o -> Ahead lo o hi d -> tx (near lo hi o d) = PInf /\ tx (far lo hi o d) = PInf.
Proof.
  intros F [[Z B]|[Z B]].
  - destruct (par_out true lo hi o d F Z (or_introl B)) as (q & _ & Q1 & Q2 & Q & _). rewrite (Q B) in *. now split.
  - destruct (par_out false lo hi o d F Z (or_intror B)) as (q & _ & Q1 & Q2 & _ & Q). rewrite (Q B) in *. now split.
Qed.
Lemma par_behind lo hi o d : Finite o -> Behind lo o hi d -> tx (near lo hi o d) = NInf /\ tx (far lo hi o d) = NInf.
Proof.
  intros F [[Z B]|[Z B]].
  - destruct (par_out true lo hi o d F Z (or_intror B)) as (q & _ & Q1 & Q2 & _ & Q). rewrite (Q B) in *. now split.
  - destruct (par_out false lo hi o d F Z (or_introl B)) as (q & _ & Q1 & Q2 & Q & _). rewrite (Q B) in *. now split.
Qed.
End P.
Lemma C96_cases_pf : forall (A : arith) (lo hi o d : num A), Finite o -> Le lo hi -> Eqs d szero -> Between lo o hi \/ Ahead lo o hi d \/ Behind lo o hi d.
Proof.
  intros A lo hi o d F H Z. pose proof F as F'. apply Finite_tx in F'. destruct F' as [r E]. destruct (zero_sign d Z) as (b & _ & S).
  pose proof (Le_nan (num_OrdLaws A) _ _ H) as [N1 N2]. assert (No : NoNaN o) by (apply NoNaN_tx; rewrite E; discriminate).
  assert (K : Between lo o hi \/ Below lo o hi \/ Above lo o hi).
  { unfold Below, Above, Between. destruct (Le_total (num_OrdLaws A) lo o N1 No) as [L1|L1].
    - destruct (Le_total (num_OrdLaws A) o hi No N2) as [L2|L2].
      + destruct (Le_cases lo o r E L1) as [Q1|Q1], (Ge_cases hi o r E L2) as [Q2|Q2].
        * left. left. now split.
        * right. right. split; [|assumption]. apply Le_tx. rewrite E, Q2. apply xle_fin. lra.
        * right. left. split; [|assumption]. apply Le_tx. rewrite E, Q1. apply xle_fin. lra.
        * left. right. split; apply Eqs_tx; rewrite E, ?Q1, ?Q2; (split; [reflexivity | discriminate]).
      + destruct (Le_cases hi o r E L2) as [Q2|Q2].
        * right. right. split; [assumption|]. apply (Lt_iff (num_OrdLaws A)). repeat split; try assumption. intros K. apply (Lt_iff (num_OrdLaws A)) in Q2. destruct Q2 as (_ & _ & Q2). apply Q2. eapply (Le_trans (num_OrdLaws A)); eassumption.
        * destruct (Le_cases lo o r E L1) as [Q1|Q1]; [right; right; split; [assumption | assumption]|]. left. right. split; apply Eqs_tx; rewrite E, ?Q1, ?Q2; (split; [reflexivity | discriminate]).
    - destruct (Ge_cases lo o r E L1) as [Q1|Q1].
      + right. left. split; [assumption|]. apply (Lt_iff (num_OrdLaws A)). repeat split; try assumption. intros K. apply (Lt_iff (num_OrdLaws A)) in Q1. destruct Q1 as (_ & _ & Q1). apply Q1. eapply (Le_trans (num_OrdLaws A)); eassumption.
      + destruct (Le_total (num_OrdLaws A) o hi No N2) as [L2|L2].
        * destruct (Ge_cases hi o r E L2) as [Q2|Q2]; [right; left; now split|]. left. right. split; apply Eqs_tx; rewrite E, ?Q1, ?Q2; (split; [reflexivity | discriminate]).
        * assert (L3 : Le lo o) by (eapply (Le_trans (num_OrdLaws A)); eassumption). destruct (Le_cases hi o r E L2) as [Q2|Q2].
          -- exfalso. apply (Lt_iff (num_OrdLaws A)) in Q2. destruct Q2 as (_ & _ & Q2). apply Q2. eapply (Le_trans (num_OrdLaws A)); eassumption.
          -- left. right. split; apply Eqs_tx; rewrite E, ?Q1, ?Q2; (split; [reflexivity | discriminate]). }
  destruct K as [K|[K|K]]; [now left|right|right]; unfold Ahead, Behind; destruct b; tauto.
Qed.
Lemma C96_beside_the_box_2d_pf : forall (A : arith) (b : BoundingBox2 (num A)) (r : Ray2 (num A)) (d : Dimension2), Finite2 (r2_origin r) ->
  let lo := coord2 (bb2_min b) d in let hi := coord2 (bb2_max b) d in let o := coord2 (r2_origin r) d in let v := vcoord2 (r2_direction r) d in
  (Behind lo o hi v -> bb2_intersect_ray b r = None) /\
  (Ahead lo o hi v -> match bb2_intersect_ray b r with Some (s, e) => Eqs s sinf /\ Eqs e sinf | None => True end).
Proof.
  intros A b r d F lo hi o v. pose proof (ray_xres2 b r) as X.
  split; intros H.
  - destruct (par_behind lo hi o v (F d) H) as [_ H2]. change (FR2 b r d = NInf) in H2. assert (Q : E2 b r = NInf).
    { unfold E2. destruct d; rewrite H2, ?xmin_NI_r, ?xmin_NI_l; reflexivity. }
    rewrite Q in X. assert (S0 : xle (Fin 0) (S2 b r) = true) by (unfold S2; repeat apply xmax_pos; apply xle_fin; lra).
    destruct (bb2_intersect_ray b r) as [[s e]|]; [|reflexivity]. exfalso. cbn [xres] in X. destruct X as [X _]. pose proof (xle_trans _ _ _ S0 X). discriminate.
  - destruct (par_ahead lo hi o v (F d) H) as [H1 _]. change (NR2 b r d = PInf) in H1. assert (Q : S2 b r = PInf).
    { unfold S2. destruct d; rewrite H1, ?xmax_PI_r, ?xmax_PI_l; reflexivity. }
    rewrite Q in X. destruct (bb2_intersect_ray b r) as [[s e]|]; [|exact I]. cbn [xres] in X. destruct X as (X & X1 & X2). assert (H0 : E2 b r = PInf) by (destruct (E2 b r); try discriminate; reflexivity).
    split; apply Eqs_tx; rewrite ?X1, ?X2, ?H0, tx_inf; (split; [congruence | congruence]).
Qed.
Lemma C96_beside_the_box_3d_pf : forall (A : arith) (b : BoundingBox3 (num A)) (r : Ray3 (num A)) (d : Dimension3), Finite3 (r3_origin r) ->
  let lo := coord3 (bb3_min b) d in let hi := coord3 (bb3_max b) d in let o := coord3 (r3_origin r) d in let v := vcoord3 (r3_direction r) d in
  (Behind lo o hi v -> bb3_intersect_ray b r = None) /\
  (Ahead lo o hi v -> match bb3_intersect_ray b r with Some (s, e) => Eqs s sinf /\ Eqs e sinf | None => True end).
Proof.
  intros A b r d F lo hi o v. pose proof (ray_xres3 b r) as X.
  split; intros H.
  - destruct (par_behind lo hi o v (F d) H) as [_ H2]. change (FR3 b r d = NInf) in H2. assert (Q : E3 b r = NInf).
    { unfold E3. destruct d; rewrite H2, ?xmin_NI_r, ?xmin_NI_l; reflexivity. }
    rewrite Q in X. assert (S0 : xle (Fin 0) (S3 b r) = true) by (unfold S3; repeat apply xmax_pos; apply xle_fin; lra).
    destruct (bb3_intersect_ray b r) as [[s e]|]; [|reflexivity]. exfalso. cbn [xres] in X. destruct X as [X _]. pose proof (xle_trans _ _ _ S0 X). discriminate.
  - destruct (par_ahead lo hi o v (F d) H) as [H1 _]. change (NR3 b r d = PInf) in H1. assert (Q : S3 b r = PInf).
    { unfold S3. destruct d; rewrite H1, ?xmax_PI_r, ?xmax_PI_l; reflexivity. }
    rewrite Q in X. destruct (bb3_intersect_ray b r) as [[s e]|]; [|exact I]. cbn [xres] in X. destruct X as (X & X1 & X2). assert (H0 : E3 b r = PInf) by (destruct (E3 b r); try discriminate; reflexivity).
    split; apply Eqs_tx; rewrite ?X1, ?X2, ?H0, tx_inf; (split; [congruence | congruence]).
Qed.
Lemma C96_no_direction_2d_pf : forall (A : arith) (b : BoundingBox2 (num A)) (r : Ray2 (num A)), Finite2 (r2_origin r) -> (forall d, Eqs (vcoord2 (r2_direction r) d) szero) ->
  let at_ (P : num A -> num A -> num A -> num A -> Prop) d := P (coord2 (bb2_min b) d) (coord2 (r2_origin r) d) (coord2 (bb2_max b) d) (vcoord2 (r2_direction r) d) in
  ((forall d, at_ (fun lo o hi _ => Between lo o hi) d) -> exists s e, bb2_intersect_ray b r = Some (s, e) /\ Eqs s szero /\ Eqs e sinf) /\
  ((forall d, at_ (fun lo o hi v => Between lo o hi \/ Ahead lo o hi v) d) -> (exists d, at_ Ahead d) -> exists s e, bb2_intersect_ray b r = Some (s, e) /\ Eqs s sinf /\ Eqs e sinf).
Proof.
  intros A b r F Z at_. unfold at_. clear at_. pose proof (ray_xres2 b r) as X. split.
  - intros H. assert (K : forall d, (NR2 b r d = NInf /\ FR2 b r d = PInf) \/ (NR2 b r d = XNaN /\ FR2 b r d = XNaN)) by (intros d; exact (par_between _ _ _ _ (F d) (Z d) (H d))).
    assert (Q : S2 b r = Fin 0 /\ E2 b r = PInf) by (unfold S2, E2; destruct (K D2X) as [[-> ->]|[-> ->]]; destruct (K D2Y) as [[-> ->]|[-> ->]]; cbn; now split).
    destruct Q as [Q1 Q2]. rewrite Q1, Q2 in X. destruct (bb2_intersect_ray b r) as [[s e]|]; cbn [xres] in X; [|discriminate]. destruct X as (_ & X1 & X2). exists s, e. split; [reflexivity|].
    split; apply Eqs_tx; rewrite ?X1, ?X2, ?tx_0, ?tx_inf; (split; [reflexivity | discriminate]).
  - intros H [d0 H0]. destruct (par_ahead _ _ _ _ (F d0) H0) as [A1 _]. change (NR2 b r d0 = PInf) in A1.
    assert (K : forall d, FR2 b r d = PInf \/ FR2 b r d = XNaN).
    { intros d. destruct (H d) as [B|B]; [destruct (par_between _ _ _ _ (F d) (Z d) B) as [[_ Q]|[_ Q]]; [left | right]; exact Q | left; exact (proj2 (par_ahead _ _ _ _ (F d) B))]. }
    assert (Q1 : S2 b r = PInf) by (unfold S2; destruct d0; rewrite A1, ?xmax_PI_r, ?xmax_PI_l; reflexivity).
    assert (Q2 : E2 b r = PInf) by (unfold E2; destruct (K D2X) as [-> | ->]; destruct (K D2Y) as [-> | ->]; reflexivity).
    rewrite Q1, Q2 in X. destruct (bb2_intersect_ray b r) as [[s e]|]; cbn [xres] in X; [|discriminate]. destruct X as (_ & X1 & X2). exists s, e. split; [reflexivity|].
    split; apply Eqs_tx; rewrite ?X1, ?X2, ?tx_0, ?tx_inf; (split; [reflexivity | discriminate]).
Qed.
Lemma C96_no_direction_3d_pf : forall (A : arith) (b : BoundingBox3 (num A)) (r : Ray3 (num A)), Finite3 (r3_origin r) -> (forall d, Eqs (vcoord3 (r3_direction r) d) szero) ->
  let at_ (P : num A -> num A -> num A -> num A -> Prop) d := P (coord3 (bb3_min b) d) (coord3 (r3_origin r) d) (coord3 (bb3_max b) d) (vcoord3 (r3_direction r) d) in
  ((forall d, at_ (fun lo o hi _ => Between lo o hi) d) -> exists s e, bb3_intersect_ray b r = Some (s, e) /\ Eqs s szero /\ Eqs e sinf) /\
  ((forall d, at_ (fun lo o hi v => Between lo o hi \/ Ahead lo o hi v) d) -> (exists d, at_ Ahead d) -> exists s e, bb3_intersect_ray b r = Some (s, e) /\ Eqs s sinf /\ Eqs e sinf).
Proof.
  intros A b r F Z at_. unfold at_. clear at_. pose proof (ray_xres3 b r) as X. split.
  - intros H. assert (K : forall d, (NR3 b r d = NInf /\ FR3 b r d = PInf) \/ (NR3 b r d = XNaN /\ FR3 b r d = XNaN)) by (intros d; exact (par_between _ _ _ _ (F d) (Z d) (H d))).
    assert (Q : S3 b r = Fin 0 /\ E3 b r = PInf) by (unfold S3, E3; destruct (K D3X) as [[-> ->]|[-> ->]]; destruct (K D3Y) as [[-> ->]|[-> ->]]; destruct (K D3Z) as [[-> ->]|[-> ->]]; cbn; now split).
    destruct Q as [Q1 Q2]. rewrite Q1, Q2 in X. destruct (bb3_intersect_ray b r) as [[s e]|]; cbn [xres] in X; [|discriminate]. destruct X as (_ & X1 & X2). exists s, e. split; [reflexivity|].
    split; apply Eqs_tx; rewrite ?X1, ?X2, ?tx_0, ?tx_inf; (split; [reflexivity | discriminate]).
  - intros H [d0 H0]. destruct (par_ahead _ _ _ _ (F d0) H0) as [A1 _]. change (NR3 b r d0 = PInf) in A1.
    assert (K : forall d, FR3 b r d = PInf \/ FR3 b r d = XNaN).
    { intros d. destruct (H d) as [B|B]; [destruct (par_between _ _ _ _ (F d) (Z d) B) as [[_ Q]|[_ Q]]; [left | right]; exact Q | left; exact (proj2 (par_ahead _ _ _ _ (F d) B))]. }
    assert (Q1 : S3 b r = PInf) by (unfold S3; destruct d0; rewrite A1, ?xmax_PI_r, ?xmax_PI_l; reflexivity).
    assert (Q2 : E3 b r = PInf) by (unfold E3; destruct (K D3X) as [-> | ->]; destruct (K D3Y) as [-> | ->]; destruct (K D3Z) as [-> | ->]; reflexivity).
    rewrite Q1, Q2 in X. destruct (bb3_intersect_ray b r) as [[s e]|]; cbn [xres] in X; [|discriminate]. destruct X as (_ & X1 & X2). exists s, e. split; [reflexivity|].
    split; apply Eqs_tx; rewrite ?X1, ?X2, ?tx_0, ?tx_inf; (split; [reflexivity | discriminate]).
Qed.
Definition hbox : BoundingBox2 (num A64) := mkBB2 (mkPoint2 (d64 1 0) (d64 0 0)) (mkPoint2 (d64 2 0) sinf).
Definition hray : Ray2 (num A64) := mkRay2 (mkPoint2 (d64 0 0) (d64 0 0)) (mkVector2 (d64 0 0) (d64 1 0)).
Lemma C96_half_infinite_never_inside_pf : forall t : num A64, bb2_is_inside hbox (r2_at hray t) = false.
Proof.
  intros t. assert (Z0 : tx (d64 0 0) = Fin 0).
  { assert (H : Eqs (d64 0 0) szero) by (vm_compute; reflexivity). apply Eqs_tx in H. rewrite tx_0 in H. apply H. }
  assert (Z1 : tx (d64 1 0) = Fin 1).
  { assert (H : Eqs (d64 1 0) sone) by (vm_compute; reflexivity). apply Eqs_tx in H. rewrite tx_1 in H. apply H. }
  assert (Q : sle (d64 1 0) (p2x (r2_at hray t)) = false).
  { change (p2x (r2_at hray t)) with (sadd (d64 0 0) (smul (d64 0 0) t)). rewrite tx_le, tx_add, tx_mul, Z0, Z1. destruct (tx t) as [a| | |]; cbn [xmul].
    - rewrite Rmult_0_l, xr_0. cbn [xadd]. rewrite Rplus_0_l, xr_0. unfold xle. apply Rle_bool_false. lra.
    - assert (G : xsigned_inf 0 = XNaN) by (unfold xsigned_inf; now rewrite !Rlt_bool_false by lra). rewrite G. cbn [xneg]. reflexivity.
    - assert (G : xsigned_inf 0 = XNaN) by (unfold xsigned_inf; now rewrite !Rlt_bool_false by lra). rewrite G. cbn [xneg]. reflexivity.
    - reflexivity. }
  unfold bb2_is_inside. change (p2x (bb2_min hbox)) with (d64 1 0).
  rewrite Q. reflexivity.
Qed.
