(** Proofs: length and distance comparisons are right unless the lengths are nearly equal (C98). *)
From Coq Require Import Bool NArith ZArith Reals List Lra Lia Psatz.
From Flocq Require Import Core.Zaux Core.Raux.
From Verif Require Import Scalar Types Vector2 Vector3 Point2 Point3 Float
  XReal OrdLaws Arith SpecOrder SpecFloat SpecErr SpecReal OrderProofs FloatX XArith FloatLaws FloatGeom FloatNan FloatRay ErrBase ExactBase FloatErr.
Import ListNotations.
Local Open Scope R_scope.
(* a computed square s of the true square Q: |s - Q| <= 4 u Q + 3 t *)
Definition Sq (u t s Q : R) : Prop := (1 - 4 * u) * Q - 3 * t <= s <= (1 + 4 * u) * Q + 3 * t.
Definition Sd (u t s Q : R) : Prop := (1 - 7 * u) * Q - 3 * t <= s <= (1 + 7 * u) * Q + 3 * t.
Lemma pow3_le u : 0 <= u <= / 16777216 -> (1 + u) ^ 3 - 1 <= 4 * u /\ (1 + u) ^ 2 - 1 <= 4 * u.
Proof. intros U. split; nra. Qed.
Lemma sq_sep u t s s' Q Q' : 0 <= u <= / 16777216 -> 0 <= t -> 0 <= Q -> Sq u t s Q -> Sq u t s' Q' -> (1 + 9 * u) * Q + 7 * t < Q' -> s < s'.
Proof.
  intros U T HQ [_ H] [H' _] K. apply Rle_lt_trans with (1 := H). apply Rlt_le_trans with (2 := H').
  assert ((1 - 4 * u) * ((1 + 9 * u) * Q + 7 * t) < (1 - 4 * u) * Q') by (apply Rmult_lt_compat_l; lra).
  assert ((1 + 4 * u) * Q <= ((1 - 4 * u) * (1 + 9 * u)) * Q) by (apply Rmult_le_compat_r; nra).
  assert (0 <= t * (/ 100 - u)) by (apply Rmult_le_pos; lra). nra.
Qed.
Lemma sd_sep u t s s' Q Q' : 0 <= u <= / 16777216 -> 0 <= t -> 0 <= Q -> Sd u t s Q -> Sd u t s' Q' -> (1 + 15 * u) * Q + 7 * t < Q' -> s < s'.
Proof.
  intros U T HQ [_ H] [H' _] K. apply Rle_lt_trans with (1 := H). apply Rlt_le_trans with (2 := H').
  assert ((1 - 7 * u) * ((1 + 15 * u) * Q + 7 * t) < (1 - 7 * u) * Q') by (apply Rmult_lt_compat_l; lra).
  assert ((1 + 7 * u) * Q <= ((1 - 7 * u) * (1 + 15 * u)) * Q) by (apply Rmult_le_compat_r; nra).
  assert (0 <= t * (/ 100 - u)) by (apply Rmult_le_pos; lra). nra.
Qed.
Lemma sq_sd u t s Q Q' : 0 <= u <= / 16777216 -> 0 <= t -> 0 <= Q -> (1 - u) ^ 2 * Q <= Q' <= (1 + u) ^ 2 * Q -> Sq u t s Q' -> Sd u t s Q.
Proof.
  intros U T HQ [H1 H2] [K1 K2]. unfold Sd. split.
  - eapply Rle_trans; [|exact K1]. assert ((1 - 4 * u) * ((1 - u) ^ 2 * Q) <= (1 - 4 * u) * Q') by (apply Rmult_le_compat_l; lra).
    assert ((1 - 7 * u) * Q <= ((1 - 4 * u) * (1 - u) ^ 2) * Q) by (apply Rmult_le_compat_r; nra). lra.
  - eapply Rle_trans; [exact K2|]. assert ((1 + 4 * u) * Q' <= (1 + 4 * u) * ((1 + u) ^ 2 * Q)) by (apply Rmult_le_compat_l; lra).
    assert (((1 + 4 * u) * (1 + u) ^ 2) * Q <= (1 + 7 * u) * Q) by (apply Rmult_le_compat_r; nra). lra.
Qed.
Section P.
Context {A : arith}.
Lemma lt_real (x y : num A) : Finite x -> NotNeg y -> NoNaN y -> (Finite y -> real_of x < real_of y) -> slt x y = true.
Proof.
  intros F N NN H. change (Lt x y). apply Lt_tx. rewrite (Finite_real x F). apply NotNeg_Le in N; [|exact NN]. apply Le_tx in N. rewrite tx_0 in N.
  destruct (tx y) as [r| | |] eqn:E; try discriminate; [|reflexivity]. apply Finite_intro in E. destruct E as [E <-]. apply xlt_fin. now apply H.
Qed.
Lemma lt_asym (x y : num A) : slt x y = true -> slt y x = false.
Proof. intros H. destruct (slt y x) eqn:E; [|reflexivity]. exfalso. apply (Lt_iff (num_OrdLaws A)) in H. apply (Lt_iff (num_OrdLaws A)) in E. destruct H as (_ & _ & H), E as (N1 & N2 & E). destruct (Le_total (num_OrdLaws A) x y N2 N1); tauto. Qed.
End P.
Lemma sq_of2 {A : arith} (v : Vector2 (num A)) : Finite (v2_dot v v) -> Sq (unit_roundoff A) (min_subnormal A) (real_of (v2_dot v v)) (Rnorm2 (RV2 v) ^ 2).
Proof.
  intros F. pose proof (C54_dot_accurate_2d_pf A v v F) as H. pose proof (u_pos (A:=A)) as U. pose proof (t_pos (A:=A)) as T. destruct (pow3_le _ U) as [P3 P2].
  destruct (Rnorm2_sq (RV2 v)) as (Q1 & Q2 & Q3 & _). rewrite Q2 in H. replace (Rnorm2 (RV2 v) ^ 2) with (Rdot2 (RV2 v) (RV2 v)) by (rewrite Q1; ring).
  set (Q := Rdot2 (RV2 v) (RV2 v)) in *. apply Rabs_le_inv in H. assert (((1 + unit_roundoff A) ^ 2 - 1) * Q <= 4 * unit_roundoff A * Q) by (apply Rmult_le_compat_r; lra). unfold Sq. lra.
Qed.
Lemma dot2_nn {A : arith} (v : Vector2 (num A)) : VNoNaN2 v -> NoNaN (v2_dot v v).
Proof.
  intros H. assert (K : forall d, NoNaN (smul (vcoord2 v d) (vcoord2 v d))).
  { intros d. specialize (H d). apply NoNaN_tx. apply NoNaN_tx in H. rewrite tx_mul. intros C. apply (f_equal xnan) in C. rewrite xr_nan in C.
    destruct (tx (vcoord2 v d)) as [r| | |]; cbn in C; congruence. }
  pose proof (K D2X) as HX. pose proof (K D2Y) as HY. unfold v2_dot. apply nn_addp; try assumption; apply sqr_NotNeg.
Qed.
Lemma VFin_nn2 {A : arith} (v : Vector2 (num A)) : VFinite2 v -> VNoNaN2 v.
Proof. intros H d. specialize (H d). apply Finite_tx in H. destruct H as [r H]. apply NoNaN_tx. rewrite H. discriminate. Qed.
Lemma sub_nn2 {A : arith} (p q : Point2 (num A)) : Finite2 p -> Finite2 q -> VNoNaN2 (p2_sub q p).
Proof. intros Fp Fq d. pose proof (sub_finite_NoNaN _ _ (Fq d) (Fp d)) as H. destruct d; exact H. Qed.
Lemma sd_of2 {A : arith} (p q : Point2 (num A)) : let w := p2_sub q p in Finite (v2_dot w w) -> Sd (unit_roundoff A) (min_subnormal A) (real_of (v2_dot w w)) (Rdist2 (RP2 p) (RP2 q) ^ 2).
Proof.
  intros w F. pose proof (u_pos (A:=A)) as U. pose proof (t_pos (A:=A)) as T. eapply sq_sd; [exact U | exact T | apply pow2_ge_0 | | exact (sq_of2 w F)].
  assert (N1 : Rnorm2 (RV2 w) ^ 2 = Rdot2 (RV2 w) (RV2 w)) by (destruct (Rnorm2_sq (RV2 w)) as (Q & _); rewrite Q; ring).
  assert (D1 : Rdist2 (RP2 p) (RP2 q) ^ 2 = (p2x (RP2 p) - p2x (RP2 q)) ^ 2 + (p2y (RP2 p) - p2y (RP2 q)) ^ 2) by (unfold Rdist2; rewrite pow2_sqrt; [reflexivity | repeat apply Rplus_le_le_0_compat; apply pow2_ge_0]).
  rewrite N1, D1. clear N1 D1. pose proof (dot_finite_inv2 w F) as FF. decompose [and] FF. unfold w in *. unfold Rdot2. cbn [p2_sub v2_new v2x v2y v3x v3y v3z RV2 RP2 p2x p2y p3x p3y p3z] in *.
  repeat match goal with H : Finite (ssub _ _) |- _ => let d := fresh "d" in let Hd := fresh "Hd" in let V := fresh "V" in
    destruct (err_sub _ _ H) as (_ & _ & d & Hd & V); pose proof (one_rel _ _ _ _ U Hd V); clear H V end.
  repeat match goal with |- context [(real_of (?c p) - real_of (?c q)) ^ 2] => replace ((real_of (c p) - real_of (c q)) ^ 2) with ((real_of (c q) - real_of (c p)) ^ 2) by ring end.
  rewrite !Rmult_plus_distr_l. lra.
Qed.
Lemma sq_of3 {A : arith} (v : Vector3 (num A)) : Finite (v3_dot v v) -> Sq (unit_roundoff A) (min_subnormal A) (real_of (v3_dot v v)) (Rnorm3 (RV3 v) ^ 2).
Proof.
  intros F. pose proof (C54_dot_accurate_3d_pf A v v F) as H. pose proof (u_pos (A:=A)) as U. pose proof (t_pos (A:=A)) as T. destruct (pow3_le _ U) as [P3 P2].
  destruct (Rnorm3_sq (RV3 v)) as (Q1 & Q2 & Q3 & _). rewrite Q2 in H. replace (Rnorm3 (RV3 v) ^ 2) with (Rdot3 (RV3 v) (RV3 v)) by (rewrite Q1; ring).
  set (Q := Rdot3 (RV3 v) (RV3 v)) in *. apply Rabs_le_inv in H. assert (((1 + unit_roundoff A) ^ 3 - 1) * Q <= 4 * unit_roundoff A * Q) by (apply Rmult_le_compat_r; lra). unfold Sq. lra.
Qed.
Lemma dot3_nn {A : arith} (v : Vector3 (num A)) : VNoNaN3 v -> NoNaN (v3_dot v v).
Proof.
  intros H. assert (K : forall d, NoNaN (smul (vcoord3 v d) (vcoord3 v d))).
  { intros d. specialize (H d). apply NoNaN_tx. apply NoNaN_tx in H. rewrite tx_mul. intros C. apply (f_equal xnan) in C. rewrite xr_nan in C.
    destruct (tx (vcoord3 v d)) as [r| | |]; cbn in C; congruence. }
  pose proof (K D3X) as HX. pose proof (K D3Y) as HY. pose proof (K D3Z) as HZ. unfold v3_dot. apply nn_addp; [apply add_NotNeg; apply sqr_NotNeg | apply sqr_NotNeg | apply nn_addp; try assumption; apply sqr_NotNeg | assumption].
Qed.
Lemma VFin_nn3 {A : arith} (v : Vector3 (num A)) : VFinite3 v -> VNoNaN3 v.
Proof. intros H d. specialize (H d). apply Finite_tx in H. destruct H as [r H]. apply NoNaN_tx. rewrite H. discriminate. Qed.
Lemma sub_nn3 {A : arith} (p q : Point3 (num A)) : Finite3 p -> Finite3 q -> VNoNaN3 (p3_sub q p).
Proof. intros Fp Fq d. pose proof (sub_finite_NoNaN _ _ (Fq d) (Fp d)) as H. destruct d; exact H. Qed.
Lemma sd_of3 {A : arith} (p q : Point3 (num A)) : let w := p3_sub q p in Finite (v3_dot w w) -> Sd (unit_roundoff A) (min_subnormal A) (real_of (v3_dot w w)) (Rdist3 (RP3 p) (RP3 q) ^ 2).
Proof.
  intros w F. pose proof (u_pos (A:=A)) as U. pose proof (t_pos (A:=A)) as T. eapply sq_sd; [exact U | exact T | apply pow2_ge_0 | | exact (sq_of3 w F)].
  assert (N1 : Rnorm3 (RV3 w) ^ 2 = Rdot3 (RV3 w) (RV3 w)) by (destruct (Rnorm3_sq (RV3 w)) as (Q & _); rewrite Q; ring).
  assert (D1 : Rdist3 (RP3 p) (RP3 q) ^ 2 = (p3x (RP3 p) - p3x (RP3 q)) ^ 2 + (p3y (RP3 p) - p3y (RP3 q)) ^ 2 + (p3z (RP3 p) - p3z (RP3 q)) ^ 2) by (unfold Rdist3; rewrite pow2_sqrt; [reflexivity | repeat apply Rplus_le_le_0_compat; apply pow2_ge_0]).
  rewrite N1, D1. clear N1 D1. pose proof (dot_finite_inv3 w F) as FF. decompose [and] FF. unfold w in *. unfold Rdot3. cbn [p3_sub v3_new v2x v2y v3x v3y v3z RV3 RP3 p2x p2y p3x p3y p3z] in *.
  repeat match goal with H : Finite (ssub _ _) |- _ => let d := fresh "d" in let Hd := fresh "Hd" in let V := fresh "V" in
    destruct (err_sub _ _ H) as (_ & _ & d & Hd & V); pose proof (one_rel _ _ _ _ U Hd V); clear H V end.
  repeat match goal with |- context [(real_of (?c p) - real_of (?c q)) ^ 2] => replace ((real_of (c p) - real_of (c q)) ^ 2) with ((real_of (c q) - real_of (c p)) ^ 2) by ring end.
  rewrite !Rmult_plus_distr_l. lra.
Qed.
Lemma C98_shorter_2d_pf : forall (A : arith) (a b : Vector2 (num A)), VFinite2 b -> Finite (v2_dot a a) ->
  (1 + 9 * unit_roundoff A) * Rnorm2 (RV2 a) ^ 2 + 7 * min_subnormal A < Rnorm2 (RV2 b) ^ 2 ->
  v2_is_shorter_than a b = true /\ v2_is_shorter_than b a = false /\ v2_is_longer_than b a = true /\ v2_is_longer_than a b = false /\
  v2_shortest a b = a /\ v2_shortest b a = a /\ v2_longest a b = b /\ v2_longest b a = b.
Proof.
  intros A a b Fb Fa H. assert (L : slt (v2_dot a a) (v2_dot b b) = true).
  { apply lt_real; [exact Fa | apply dot2_self_NotNeg | apply dot2_nn, VFin_nn2, Fb |]. intros F. eapply sq_sep; [exact (u_pos (A:=A)) | exact (t_pos (A:=A)) | | exact (sq_of2 a Fa) | exact (sq_of2 b F) | exact H]. apply pow2_ge_0. }
  pose proof (lt_asym _ _ L) as L'. unfold v2_shortest, v2_longest, v2_is_shorter_than, v2_is_longer_than. rewrite L, L'. repeat split.
Qed.
Lemma C98_shorter_3d_pf : forall (A : arith) (a b : Vector3 (num A)), VFinite3 b -> Finite (v3_dot a a) ->
  (1 + 9 * unit_roundoff A) * Rnorm3 (RV3 a) ^ 2 + 7 * min_subnormal A < Rnorm3 (RV3 b) ^ 2 ->
  v3_is_shorter_than a b = true /\ v3_is_shorter_than b a = false /\ v3_is_longer_than b a = true /\ v3_is_longer_than a b = false /\
  v3_shortest a b = a /\ v3_shortest b a = a /\ v3_longest a b = b /\ v3_longest b a = b.
Proof.
  intros A a b Fb Fa H. assert (L : slt (v3_dot a a) (v3_dot b b) = true).
  { apply lt_real; [exact Fa | apply dot3_self_NotNeg | apply dot3_nn, VFin_nn3, Fb |]. intros F. eapply sq_sep; [exact (u_pos (A:=A)) | exact (t_pos (A:=A)) | | exact (sq_of3 a Fa) | exact (sq_of3 b F) | exact H]. apply pow2_ge_0. }
  pose proof (lt_asym _ _ L) as L'. unfold v3_shortest, v3_longest, v3_is_shorter_than, v3_is_longer_than. rewrite L, L'. repeat split.
Qed.
Lemma C98_shortest_nearly_2d_pf : forall (A : arith) (a b v : Vector2 (num A)), Finite (v2_dot a a) -> Finite (v2_dot b b) -> v = a \/ v = b ->
  let sq w := Rnorm2 (RV2 w) ^ 2 in let u := unit_roundoff A in let t := min_subnormal A in
  sq (v2_shortest a b) <= (1 + 9 * u) * sq v + 7 * t /\ sq v <= (1 + 9 * u) * sq (v2_longest a b) + 7 * t.
Proof.
  intros A a b v Fa Fb V sq u t. pose proof (u_pos (A:=A)) as U. pose proof (t_pos (A:=A)) as T. fold u in U. fold t in T.
  assert (K : forall w, 0 <= sq w) by (intros w; apply pow2_ge_0). assert (R : forall w, sq w <= (1 + 9 * u) * sq w + 7 * t) by (intros w; specialize (K w); nra).
  assert (VF : forall w : Vector2 (num A), Finite (v2_dot w w) -> VFinite2 w) by (intros w Fw d; pose proof (dot_finite_inv2 w Fw); destruct d; cbn; tauto).
  assert (S : forall x y : Vector2 (num A), Finite (v2_dot x x) -> Finite (v2_dot y y) -> v2_is_shorter_than x y = false -> sq y <= (1 + 9 * u) * sq x + 7 * t).
  { intros x y Fx Fy E. apply Rnot_lt_le. intros C. destruct (C98_shorter_2d_pf A x y (VF y Fy) Fx C) as [C' _]. congruence. }
  assert (S' : forall x y : Vector2 (num A), Finite (v2_dot x x) -> Finite (v2_dot y y) -> v2_is_shorter_than x y = true -> sq x <= (1 + 9 * u) * sq y + 7 * t).
  { intros x y Fx Fy E. apply S; try assumption. exact (lt_asym _ _ E). }
  assert (G : v2_is_longer_than a b = v2_is_shorter_than b a) by reflexivity. unfold v2_shortest, v2_longest. rewrite G.
  split.
  - destruct (v2_is_shorter_than a b) eqn:E; destruct V as [-> | ->]; try apply R; [now apply S' | now apply S].
  - destruct (v2_is_shorter_than b a) eqn:E; destruct V as [-> | ->]; try apply R; [now apply S' | now apply S].
Qed.
Lemma C98_shortest_nearly_3d_pf : forall (A : arith) (a b v : Vector3 (num A)), Finite (v3_dot a a) -> Finite (v3_dot b b) -> v = a \/ v = b ->
  let sq w := Rnorm3 (RV3 w) ^ 2 in let u := unit_roundoff A in let t := min_subnormal A in
  sq (v3_shortest a b) <= (1 + 9 * u) * sq v + 7 * t /\ sq v <= (1 + 9 * u) * sq (v3_longest a b) + 7 * t.
Proof.
  intros A a b v Fa Fb V sq u t. pose proof (u_pos (A:=A)) as U. pose proof (t_pos (A:=A)) as T. fold u in U. fold t in T.
  assert (K : forall w, 0 <= sq w) by (intros w; apply pow2_ge_0). assert (R : forall w, sq w <= (1 + 9 * u) * sq w + 7 * t) by (intros w; specialize (K w); nra).
  assert (VF : forall w : Vector3 (num A), Finite (v3_dot w w) -> VFinite3 w) by (intros w Fw d; pose proof (dot_finite_inv3 w Fw); destruct d; cbn; tauto).
  assert (S : forall x y : Vector3 (num A), Finite (v3_dot x x) -> Finite (v3_dot y y) -> v3_is_shorter_than x y = false -> sq y <= (1 + 9 * u) * sq x + 7 * t).
  { intros x y Fx Fy E. apply Rnot_lt_le. intros C. destruct (C98_shorter_3d_pf A x y (VF y Fy) Fx C) as [C' _]. congruence. }
  assert (S' : forall x y : Vector3 (num A), Finite (v3_dot x x) -> Finite (v3_dot y y) -> v3_is_shorter_than x y = true -> sq x <= (1 + 9 * u) * sq y + 7 * t).
  { intros x y Fx Fy E. apply S; try assumption. exact (lt_asym _ _ E). }
  assert (G : v3_is_longer_than a b = v3_is_shorter_than b a) by reflexivity. unfold v3_shortest, v3_longest. rewrite G.
  split.
  - destruct (v3_is_shorter_than a b) eqn:E; destruct V as [-> | ->]; try apply R; [now apply S' | now apply S].
  - destruct (v3_is_shorter_than b a) eqn:E; destruct V as [-> | ->]; try apply R; [now apply S' | now apply S].
Qed.
Lemma C98_closer_2d_pf : forall (A : arith) (p a b : Point2 (num A)), Finite2 p -> Finite2 b -> Finite (v2_dot (p2_sub a p) (p2_sub a p)) ->
  (1 + 15 * unit_roundoff A) * Rdist2 (RP2 p) (RP2 a) ^ 2 + 7 * min_subnormal A < Rdist2 (RP2 p) (RP2 b) ^ 2 ->
  p2_is_closer_to p a b = true /\ p2_is_closer_to p b a = false /\ p2_is_farther_from p b a = true /\ p2_is_farther_from p a b = false /\
  p2_closest p a b = a /\ p2_closest p b a = a /\ p2_farthest p a b = b /\ p2_farthest p b a = b.
Proof.
  intros A p a b Fp Fb Fa H. assert (L : slt (v2_dot (p2_sub a p) (p2_sub a p)) (v2_dot (p2_sub b p) (p2_sub b p)) = true).
  { apply lt_real; [exact Fa | apply dot2_self_NotNeg | apply dot2_nn, sub_nn2; assumption |]. intros F. eapply sd_sep; [exact (u_pos (A:=A)) | exact (t_pos (A:=A)) | | exact (sd_of2 p a Fa) | exact (sd_of2 p b F) | exact H]. apply pow2_ge_0. }
  pose proof (lt_asym _ _ L) as L'. unfold p2_closest, p2_farthest, p2_is_closer_to, p2_is_farther_from. cbv zeta. rewrite L, L'. repeat split.
Qed.
Lemma C98_closer_3d_pf : forall (A : arith) (p a b : Point3 (num A)), Finite3 p -> Finite3 b -> Finite (v3_dot (p3_sub a p) (p3_sub a p)) ->
  (1 + 15 * unit_roundoff A) * Rdist3 (RP3 p) (RP3 a) ^ 2 + 7 * min_subnormal A < Rdist3 (RP3 p) (RP3 b) ^ 2 ->
  p3_is_closer_to p a b = true /\ p3_is_closer_to p b a = false /\ p3_is_farther_from p b a = true /\ p3_is_farther_from p a b = false /\
  p3_closest p a b = a /\ p3_closest p b a = a /\ p3_farthest p a b = b /\ p3_farthest p b a = b.
Proof.
  intros A p a b Fp Fb Fa H. assert (L : slt (v3_dot (p3_sub a p) (p3_sub a p)) (v3_dot (p3_sub b p) (p3_sub b p)) = true).
  { apply lt_real; [exact Fa | apply dot3_self_NotNeg | apply dot3_nn, sub_nn3; assumption |]. intros F. eapply sd_sep; [exact (u_pos (A:=A)) | exact (t_pos (A:=A)) | | exact (sd_of3 p a Fa) | exact (sd_of3 p b F) | exact H]. apply pow2_ge_0. }
  pose proof (lt_asym _ _ L) as L'. unfold p3_closest, p3_farthest, p3_is_closer_to, p3_is_farther_from. cbv zeta. rewrite L, L'. repeat split.
Qed.
Lemma C98_closest_nearly_2d_pf : forall (A : arith) (p a b c : Point2 (num A)), Finite (v2_dot (p2_sub a p) (p2_sub a p)) -> Finite (v2_dot (p2_sub b p) (p2_sub b p)) -> c = a \/ c = b ->
  let sq x := Rdist2 (RP2 p) (RP2 x) ^ 2 in let u := unit_roundoff A in let t := min_subnormal A in
  sq (p2_closest p a b) <= (1 + 15 * u) * sq c + 7 * t /\ sq c <= (1 + 15 * u) * sq (p2_farthest p a b) + 7 * t.
Proof.
  intros A p a b c Fa Fb V sq u t. pose proof (u_pos (A:=A)) as U. pose proof (t_pos (A:=A)) as T. fold u in U. fold t in T.
  assert (K : forall w, 0 <= sq w) by (intros w; apply pow2_ge_0). assert (R : forall w, sq w <= (1 + 15 * u) * sq w + 7 * t) by (intros w; specialize (K w); nra).
  assert (VF : forall w : Point2 (num A), Finite (v2_dot (p2_sub w p) (p2_sub w p)) -> Finite2 p /\ Finite2 w).
  { intros w Fw. pose proof (dot_finite_inv2 _ Fw) as Q. cbn [p2_sub v2_new v2x v2y v3x v3y v3z] in Q. decompose [and] Q. repeat match goal with X : Finite (ssub _ _) |- _ => apply err_sub in X; destruct X as (? & ? & _) end. split; intros d; destruct d; cbn; assumption. }
  assert (S : forall x y : Point2 (num A), Finite (v2_dot (p2_sub x p) (p2_sub x p)) -> Finite (v2_dot (p2_sub y p) (p2_sub y p)) -> p2_is_closer_to p x y = false -> sq y <= (1 + 15 * u) * sq x + 7 * t).
  { intros x y Fx Fy E. apply Rnot_lt_le. intros C. destruct (C98_closer_2d_pf A p x y (proj1 (VF y Fy)) (proj2 (VF y Fy)) Fx C) as [C' _]. congruence. }
  assert (S' : forall x y : Point2 (num A), Finite (v2_dot (p2_sub x p) (p2_sub x p)) -> Finite (v2_dot (p2_sub y p) (p2_sub y p)) -> p2_is_closer_to p x y = true -> sq x <= (1 + 15 * u) * sq y + 7 * t).
  { intros x y Fx Fy E. apply S; try assumption. exact (lt_asym _ _ E). }
  assert (G : p2_is_farther_from p a b = p2_is_closer_to p b a) by reflexivity. unfold p2_closest, p2_farthest. rewrite G.
  split.
  - destruct (p2_is_closer_to p a b) eqn:E; destruct V as [-> | ->]; try apply R; [now apply S' | now apply S].
  - destruct (p2_is_closer_to p b a) eqn:E; destruct V as [-> | ->]; try apply R; [now apply S' | now apply S].
Qed.
Lemma C98_closest_nearly_3d_pf : forall (A : arith) (p a b c : Point3 (num A)), Finite (v3_dot (p3_sub a p) (p3_sub a p)) -> Finite (v3_dot (p3_sub b p) (p3_sub b p)) -> c = a \/ c = b ->
  let sq x := Rdist3 (RP3 p) (RP3 x) ^ 2 in let u := unit_roundoff A in let t := min_subnormal A in
  sq (p3_closest p a b) <= (1 + 15 * u) * sq c + 7 * t /\ sq c <= (1 + 15 * u) * sq (p3_farthest p a b) + 7 * t.
Proof.
  intros A p a b c Fa Fb V sq u t. pose proof (u_pos (A:=A)) as U. pose proof (t_pos (A:=A)) as T. fold u in U. fold t in T.
  assert (K : forall w, 0 <= sq w) by (intros w; apply pow2_ge_0). assert (R : forall w, sq w <= (1 + 15 * u) * sq w + 7 * t) by (intros w; specialize (K w); nra).
  assert (VF : forall w : Point3 (num A), Finite (v3_dot (p3_sub w p) (p3_sub w p)) -> Finite3 p /\ Finite3 w).
  { intros w Fw. pose proof (dot_finite_inv3 _ Fw) as Q. cbn [p3_sub v3_new v2x v2y v3x v3y v3z] in Q. decompose [and] Q. repeat match goal with X : Finite (ssub _ _) |- _ => apply err_sub in X; destruct X as (? & ? & _) end. split; intros d; destruct d; cbn; assumption. }
  assert (S : forall x y : Point3 (num A), Finite (v3_dot (p3_sub x p) (p3_sub x p)) -> Finite (v3_dot (p3_sub y p) (p3_sub y p)) -> p3_is_closer_to p x y = false -> sq y <= (1 + 15 * u) * sq x + 7 * t).
  { intros x y Fx Fy E. apply Rnot_lt_le. intros C. destruct (C98_closer_3d_pf A p x y (proj1 (VF y Fy)) (proj2 (VF y Fy)) Fx C) as [C' _]. congruence. }
  assert (S' : forall x y : Point3 (num A), Finite (v3_dot (p3_sub x p) (p3_sub x p)) -> Finite (v3_dot (p3_sub y p) (p3_sub y p)) -> p3_is_closer_to p x y = true -> sq x <= (1 + 15 * u) * sq y + 7 * t).
  { intros x y Fx Fy E. apply S; try assumption. exact (lt_asym _ _ E). }
  assert (G : p3_is_farther_from p a b = p3_is_closer_to p b a) by reflexivity. unfold p3_closest, p3_farthest. rewrite G.
  split.
  - destruct (p3_is_closer_to p a b) eqn:E; destruct V as [-> | ->]; try apply R; [now apply S' | now apply S].
  - destruct (p3_is_closer_to p b a) eqn:E; destruct V as [-> | ->]; try apply R; [now apply S' | now apply S].
Qed.
