(** Proofs: how perpendicular a computed cross product is (C99). *)
From Coq Require Import Bool NArith ZArith Reals List Lra Lia Psatz.
From Flocq Require Import Core.Zaux Core.Raux.
From Verif Require Import Scalar Types Vector2 Vector3 Point2 Point3 Float
  XReal OrdLaws Arith SpecOrder SpecFloat SpecErr SpecReal SpecCam OrderProofs FloatX XArith FloatLaws ErrBase ExactBase FloatErr.
Import ListNotations.
Local Open Scope R_scope.
Definition Vdiff (a b : Vector3 R) : Vector3 R := mkVector3 (v3x a - v3x b) (v3y a - v3y b) (v3z a - v3z b).
Lemma absq x : Rabs x * Rabs x = x * x.
Proof. rewrite <- Rabs_mult. apply Rabs_pos_eq. apply Rle_0_sqr. Qed.
Lemma norm3_nn v : 0 <= Rnorm3 v. Proof. apply sqrt_pos. Qed.
Lemma norm3_sq v : Rnorm3 v * Rnorm3 v = v3x v * v3x v + v3y v * v3y v + v3z v * v3z v.
Proof. unfold Rnorm3. rewrite sqrt_sqrt; [ring | repeat apply Rplus_le_le_0_compat; apply pow2_ge_0]. Qed.
Lemma sq_le a b : 0 <= b -> a * a <= b * b -> a <= b.
Proof. intros B H. destruct (Rle_dec a b) as [L|L]; [exact L|]. exfalso. nra. Qed.
Lemma minor_le a b : Rabs (v3y a) * Rabs (v3z b) + Rabs (v3z a) * Rabs (v3y b) <= Rnorm3 a * Rnorm3 b /\
  Rabs (v3z a) * Rabs (v3x b) + Rabs (v3x a) * Rabs (v3z b) <= Rnorm3 a * Rnorm3 b /\
  Rabs (v3x a) * Rabs (v3y b) + Rabs (v3y a) * Rabs (v3x b) <= Rnorm3 a * Rnorm3 b.
Proof.
  pose proof (norm3_nn a) as Na. pose proof (norm3_nn b) as Nb. pose proof (norm3_sq a) as Sa. pose proof (norm3_sq b) as Sb.
  assert (Q : forall p q r s x y : R, 0 <= x -> 0 <= y -> p * p + q * q <= x * x -> r * r + s * s <= y * y -> Rabs p * Rabs s + Rabs q * Rabs r <= x * y).
  { intros p q r s x y X Y H K. apply sq_le; [now apply Rmult_le_pos|]. rewrite <- (absq p), <- (absq q) in H. rewrite <- (absq r), <- (absq s) in K.
    set (p' := Rabs p) in *. set (q' := Rabs q) in *. set (r' := Rabs r) in *. set (s' := Rabs s) in *.
    apply Rle_trans with ((p' * p' + q' * q') * (r' * r' + s' * s')).
    - assert (0 <= (p' * r' - q' * s') ^ 2) by apply pow2_ge_0. nra.
    - replace (x * y * (x * y)) with ((x * x) * (y * y)) by ring. apply Rmult_le_compat; try assumption; apply Rplus_le_le_0_compat; apply Rle_0_sqr. }
  pose proof (Rle_0_sqr (v3x a)) as A1. pose proof (Rle_0_sqr (v3y a)) as A2. pose proof (Rle_0_sqr (v3z a)) as A3. pose proof (Rle_0_sqr (v3x b)) as B1. pose proof (Rle_0_sqr (v3y b)) as B2. pose proof (Rle_0_sqr (v3z b)) as B3. unfold Rsqr in *.
  repeat split; apply Q; lra.
Qed.
Lemma sum_abs_le v : Rabs (v3x v) + Rabs (v3y v) + Rabs (v3z v) <= 7 / 4 * Rnorm3 v.
Proof.
  pose proof (norm3_nn v) as N. pose proof (norm3_sq v) as S. apply sq_le; [lra|]. rewrite <- (absq (v3x v)), <- (absq (v3y v)), <- (absq (v3z v)) in S.
  set (x := Rabs (v3x v)) in *. set (y := Rabs (v3y v)) in *. set (z := Rabs (v3z v)) in *. replace (7 / 4 * Rnorm3 v * (7 / 4 * Rnorm3 v)) with (49 / 16 * (Rnorm3 v * Rnorm3 v)) by field. rewrite S.
  assert (0 <= (x - y) ^ 2) by apply pow2_ge_0. assert (0 <= (x - z) ^ 2) by apply pow2_ge_0. assert (0 <= (y - z) ^ 2) by apply pow2_ge_0. assert (0 <= x * x) by apply Rle_0_sqr. assert (0 <= y * y) by apply Rle_0_sqr. assert (0 <= z * z) by apply Rle_0_sqr. nra.
Qed.
Lemma norm_of_bound v m : 0 <= m -> Rabs (v3x v) <= m -> Rabs (v3y v) <= m -> Rabs (v3z v) <= m -> Rnorm3 v <= 7 / 4 * m.
Proof.
  intros M X Y Z. apply sq_le; [lra|]. rewrite norm3_sq, <- (absq (v3x v)), <- (absq (v3y v)), <- (absq (v3z v)).
  pose proof (Rabs_pos (v3x v)). pose proof (Rabs_pos (v3y v)). pose proof (Rabs_pos (v3z v)).
  assert (Rabs (v3x v) * Rabs (v3x v) <= m * m) by (apply Rmult_le_compat; assumption). assert (Rabs (v3y v) * Rabs (v3y v) <= m * m) by (apply Rmult_le_compat; assumption). assert (Rabs (v3z v) * Rabs (v3z v) <= m * m) by (apply Rmult_le_compat; assumption). nra.
Qed.
Lemma dot_bound a e m : Rabs (v3x e) <= m -> Rabs (v3y e) <= m -> Rabs (v3z e) <= m -> Rdot3 (absV3 a) (absV3 e) <= 7 / 4 * Rnorm3 a * m.
Proof.
  intros X Y Z. assert (M : 0 <= m) by (pose proof (Rabs_pos (v3x e)); lra). pose proof (sum_abs_le a) as S. unfold Rdot3, absV3. cbn [v3x v3y v3z].
  pose proof (Rabs_pos (v3x a)). pose proof (Rabs_pos (v3y a)). pose proof (Rabs_pos (v3z a)).
  assert (Rabs (v3x a) * Rabs (v3x e) <= Rabs (v3x a) * m) by (apply Rmult_le_compat_l; assumption). assert (Rabs (v3y a) * Rabs (v3y e) <= Rabs (v3y a) * m) by (apply Rmult_le_compat_l; assumption). assert (Rabs (v3z a) * Rabs (v3z e) <= Rabs (v3z a) * m) by (apply Rmult_le_compat_l; assumption).
  assert ((Rabs (v3x a) + Rabs (v3y a) + Rabs (v3z a)) * m <= 7 / 4 * Rnorm3 a * m) by (apply Rmult_le_compat_r; assumption). lra.
Qed.
Lemma dot_abs a e : Rabs (Rdot3 a e) <= Rdot3 (absV3 a) (absV3 e).
Proof.
  unfold Rdot3, absV3. cbn [v3x v3y v3z]. eapply Rle_trans; [apply Rabs_triang|]. rewrite (Rabs_mult (v3z a)). apply Rplus_le_compat_r. eapply Rle_trans; [apply Rabs_triang|]. rewrite !Rabs_mult. lra.
Qed.
(* every component of the error is at most 21/10 u |a||b| + 2 t *)
Lemma cross_err {A : arith} (a b : Vector3 (num A)) : VFinite3 (v3_cross a b) -> let e := Vdiff (RV3 (v3_cross a b)) (Rcross3 (RV3 a) (RV3 b)) in
  let m := 21 / 10 * unit_roundoff A * (Rnorm3 (RV3 a) * Rnorm3 (RV3 b)) + 2 * min_subnormal A in
  Rabs (v3x e) <= m /\ Rabs (v3y e) <= m /\ Rabs (v3z e) <= m.
Proof.
  intros F e m. destruct (minor_le (RV3 a) (RV3 b)) as (M1 & M2 & M3). pose proof (u_pos (A:=A)) as U. set (u := unit_roundoff A) in *.
  assert (G : 0 <= (1 + u) ^ 2 - 1 <= 21 / 10 * u) by (split; nra).
  assert (K : forall x y r : R, 0 <= x -> x <= y -> Rabs r <= ((1 + u) ^ 2 - 1) * x + 2 * min_subnormal A -> Rabs r <= 21 / 10 * u * y + 2 * min_subnormal A).
  { intros x y r X XY H. eapply Rle_trans; [exact H|]. apply Rplus_le_compat_r. apply Rmult_le_compat; lra. }
  assert (NN : forall p q r s : R, 0 <= Rabs p * Rabs q + Rabs r * Rabs s) by (intros; apply Rplus_le_le_0_compat; apply Rmult_le_pos; apply Rabs_pos).
  repeat split.
  - exact (K _ _ _ (NN _ _ _ _) M1 (C59_cross_accurate_pf A a b D3X (F D3X))).
  - exact (K _ _ _ (NN _ _ _ _) M2 (C59_cross_accurate_pf A a b D3Y (F D3Y))).
  - exact (K _ _ _ (NN _ _ _ _) M3 (C59_cross_accurate_pf A a b D3Z (F D3Z))).
Qed.
Lemma cross_perp x y : Rdot3 x (Rcross3 x y) = 0 /\ Rdot3 y (Rcross3 x y) = 0.
Proof. unfold Rdot3, Rcross3. cbn. split; ring. Qed.
Lemma dot_split a c x : Rdot3 a c = Rdot3 a x + Rdot3 a (Vdiff c x).
Proof. unfold Rdot3, Vdiff. cbn. ring. Qed.
Lemma C99_cross_error_pf : forall (A : arith) (a b : Vector3 (num A)), VFinite3 (v3_cross a b) ->
  let c := RV3 (v3_cross a b) in let x := Rcross3 (RV3 a) (RV3 b) in
  Rnorm3 (mkVector3 (v3x c - v3x x) (v3y c - v3y x) (v3z c - v3z x)) <= 4 * unit_roundoff A * (Rnorm3 (RV3 a) * Rnorm3 (RV3 b)) + 4 * min_subnormal A.
Proof.
  intros A a b F c x. destruct (cross_err a b F) as (E1 & E2 & E3). fold c x in E1, E2, E3. pose proof (u_pos (A:=A)) as U. pose proof (t_pos (A:=A)) as T.
  set (ST := Rnorm3 (RV3 a) * Rnorm3 (RV3 b)) in *. assert (P : 0 <= ST) by (apply Rmult_le_pos; apply norm3_nn). assert (P' : 0 <= unit_roundoff A * ST) by (apply Rmult_le_pos; lra).
  eapply Rle_trans; [exact (norm_of_bound (Vdiff c x) _ (Rle_trans _ _ _ (Rabs_pos _) E1) E1 E2 E3)|]. nra.
Qed.
Lemma C99_perpendicular_pf : forall (A : arith) (a b w : Vector3 (num A)), VFinite3 (v3_cross a b) -> w = a \/ w = b ->
  Rabs (Rdot3 (RV3 w) (RV3 (v3_cross a b))) <= 4 * unit_roundoff A * (Rnorm3 (RV3 w) * (Rnorm3 (RV3 a) * Rnorm3 (RV3 b))) + 4 * min_subnormal A * Rnorm3 (RV3 w).
Proof.
  intros A a b w F W. destruct (cross_err a b F) as (E1 & E2 & E3). pose proof (u_pos (A:=A)) as U. pose proof (t_pos (A:=A)) as T.
  set (ST := Rnorm3 (RV3 a) * Rnorm3 (RV3 b)) in *. set (e := Vdiff _ _) in *. assert (P : 0 <= ST) by (apply Rmult_le_pos; apply norm3_nn).
  assert (Z : Rdot3 (RV3 w) (RV3 (v3_cross a b)) = Rdot3 (RV3 w) e).
  { rewrite (dot_split _ _ (Rcross3 (RV3 a) (RV3 b))). destruct (cross_perp (RV3 a) (RV3 b)) as [Z1 Z2]. destruct W as [-> | ->]; [rewrite Z1 | rewrite Z2]; apply Rplus_0_l. }
  rewrite Z. eapply Rle_trans; [apply dot_abs|]. eapply Rle_trans; [exact (dot_bound (RV3 w) e _ E1 E2 E3)|].
  pose proof (norm3_nn (RV3 w)) as Nw. set (S := Rnorm3 (RV3 w)) in *. assert (0 <= unit_roundoff A * (S * ST)) by (apply Rmult_le_pos; [lra|]; apply Rmult_le_pos; assumption). assert (0 <= min_subnormal A * S) by (apply Rmult_le_pos; assumption). lra.
Qed.
Lemma C99_computed_dot_pf : forall (A : arith) (a b w : Vector3 (num A)), VFinite3 (v3_cross a b) -> w = a \/ w = b -> Finite (v3_dot w (v3_cross a b)) ->
  Rabs (real_of (v3_dot w (v3_cross a b))) <= 10 * unit_roundoff A * (Rnorm3 (RV3 w) * (Rnorm3 (RV3 a) * Rnorm3 (RV3 b))) + min_subnormal A * (5 * Rnorm3 (RV3 w) + 3).
Proof.
  intros A a b w F W FD. pose proof (C99_perpendicular_pf A a b w F W) as H. pose proof (C54_dot_accurate_3d_pf A w (v3_cross a b) FD) as D. destruct (cross_err a b F) as (E1 & E2 & E3). pose proof (u_pos (A:=A)) as U. pose proof (t_pos (A:=A)) as T.
  destruct (minor_le (RV3 a) (RV3 b)) as (M1 & M2 & M3).
  set (c := RV3 (v3_cross a b)) in *. set (x := Rcross3 (RV3 a) (RV3 b)) in *. set (ST := Rnorm3 (RV3 a) * Rnorm3 (RV3 b)) in *. assert (P : 0 <= ST) by (apply Rmult_le_pos; apply norm3_nn).
  set (u := unit_roundoff A) in *. set (t := min_subnormal A) in *. assert (uST : 0 <= u * ST) by (apply Rmult_le_pos; lra).
  assert (C : forall p q r s k : R, Rabs p * Rabs q + Rabs r * Rabs s <= ST -> Rabs (k - (p * q - r * s)) <= 21 / 10 * u * ST + 2 * t -> Rabs k <= 11 / 10 * ST + 2 * t).
  { intros p q r s k Q K. replace k with ((k - (p * q - r * s)) + (p * q - r * s)) by ring. eapply Rle_trans; [apply Rabs_triang|]. assert (Rabs (p * q - r * s) <= ST).
    { unfold Rminus. eapply Rle_trans; [apply Rabs_triang|]. rewrite Rabs_Ropp, !Rabs_mult. exact Q. }
    assert (21 / 10 * u * ST <= 1 / 10 * ST) by (apply Rmult_le_compat_r; lra). lra. }
  assert (B : Rdot3 (absV3 (RV3 w)) (absV3 c) <= 7 / 4 * Rnorm3 (RV3 w) * (11 / 10 * ST + 2 * t)).
  { apply dot_bound; [eapply C; [exact M1 | exact E1] | eapply C; [exact M2 | exact E2] | eapply C; [exact M3 | exact E3]]. }
  pose proof (norm3_nn (RV3 w)) as Nw. set (S := Rnorm3 (RV3 w)) in *.
  replace (real_of (v3_dot w (v3_cross a b))) with ((real_of (v3_dot w (v3_cross a b)) - Rdot3 (RV3 w) c) + Rdot3 (RV3 w) c) by ring.
  eapply Rle_trans; [apply Rabs_triang|]. assert (G : 0 <= (1 + u) ^ 3 - 1 <= 31 / 10 * u) by (split; nra).
  assert (N0 : 0 <= S * ST) by (apply Rmult_le_pos; assumption). assert (N1 : 0 <= u * (S * ST)) by (apply Rmult_le_pos; lra). assert (N2 : 0 <= t * S) by (apply Rmult_le_pos; assumption). assert (N3 : 0 <= S * (11 / 10 * ST + 2 * t)) by (apply Rmult_le_pos; lra).
  assert (K : ((1 + u) ^ 3 - 1) * Rdot3 (absV3 (RV3 w)) (absV3 c) <= 31 / 10 * u * (7 / 4 * S * (11 / 10 * ST + 2 * t))).
  { apply Rle_trans with (((1 + u) ^ 3 - 1) * (7 / 4 * S * (11 / 10 * ST + 2 * t))); [apply Rmult_le_compat_l; lra | apply Rmult_le_compat_r; lra]. }
  assert (N4 : u * (t * S) <= / 16777216 * (t * S)) by (apply Rmult_le_compat_r; lra). lra.
Qed.
Lemma C99_self_zero_pf : forall (A : arith) (v : Vector3 (num A)) (d : Dimension3), Finite (vcoord3 (v3_cross v v) d) -> Eqs (vcoord3 (v3_cross v v) d) szero.
Proof.
  intros A v d F. assert (K : forall x y : num A, Finite (ssub (smul x y) (smul y x)) -> Eqs (ssub (smul x y) (smul y x)) szero).
  { intros x y H. destruct (err_sub _ _ H) as (H1 & H2 & _). assert (E : tx (smul x y) = tx (smul y x)) by (rewrite !tx_mul; f_equal; destruct (tx x), (tx y); cbn; try reflexivity; f_equal; ring).
    apply Eqs_tx. rewrite tx_0, tx_sub, E. rewrite (Finite_real _ H2). cbn [xsub xneg xadd]. replace (real_of (smul y x) + - real_of (smul y x)) with 0 by ring. rewrite xr_0. split; [reflexivity | discriminate]. }
  destruct d; apply K; exact F.
Qed.
