(** Proofs: directions in floating point (C101). *)
From Coq Require Import Bool NArith ZArith Reals List Lra Lia Psatz.
From Flocq Require Import Core.Zaux Core.Raux.
From Verif Require Import Scalar Types Vector2 Vector3 Point2 Point3 Float
  XReal OrdLaws Arith SpecOrder SpecFloat SpecErr SpecReal OrderProofs FloatX XArith FloatLaws ErrBase ExactBase ExactVec FloatErr FloatTri ExVals.
Local Open Scope R_scope.
Lemma div_le a b c : 0 < b -> a <= c * b -> a / b <= c.
Proof. intros B H. apply Rmult_le_reg_r with b; [exact B|]. unfold Rdiv. rewrite Rmult_assoc, Rinv_l, Rmult_1_r by lra. exact H. Qed.
(* w / m for w near y and m near 1 *)
Lemma dir_step u w m y e : 0 <= u <= / 16777216 -> 0 <= e -> Rabs (w - y) <= u * Rabs y + e -> Rabs (m - 1) <= 101 / 100 * u -> Rabs (w / m - y) <= 21 / 10 * u * Rabs y + 11 / 10 * e.
Proof.
  intros U E H M. apply Rabs_le_inv in M. assert (PM : 9999 / 10000 <= m) by lra.
  replace (w / m - y) with (((w - y) + y * (1 - m)) / m) by (field; lra). unfold Rdiv at 1. rewrite Rabs_mult, (Rabs_pos_eq (/ m)) by (left; apply Rinv_0_lt_compat; lra).
  apply div_le; [lra|]. eapply Rle_trans; [apply Rabs_triang|]. rewrite Rabs_mult. assert (M1 : Rabs (1 - m) <= 101 / 100 * u) by (apply Rabs_le; lra). pose proof (Rabs_pos y) as Y.
  assert (Rabs y * Rabs (1 - m) <= Rabs y * (101 / 100 * u)) by (apply Rmult_le_compat_l; assumption).
  assert (0 <= u * Rabs y) by (apply Rmult_le_pos; lra).
  assert ((21 / 10 * u * Rabs y + 11 / 10 * e) * (9999 / 10000) <= (21 / 10 * u * Rabs y + 11 / 10 * e) * m) by (apply Rmult_le_compat_l; lra). lra.
Qed.
(* the computed direction of a scaled vector against that of the vector *)
Lemma dir_real u t n y w m p q e : 0 <= u <= / 16777216 -> 0 <= t -> t <= u * u * u -> 0 <= e <= 52 / 100 * (u * u) -> Rabs y = Rabs n -> Rabs n <= 1 ->
  Rabs (w - y) <= u * Rabs y + e -> Rabs (m - 1) <= 101 / 100 * u -> Rabs (p - w / m) <= 7 * u * Rabs (w / m) + t -> Rabs (q - y) <= 7 * u * Rabs y + t ->
  Rabs (p - q) <= 17 * u * Rabs n + u * u.
Proof.
  intros U T TU E YN N W M P Q. pose proof (dir_step u w m y e U (proj1 E) W M) as D. rewrite YN in *. pose proof (Rabs_pos n) as N0.
  assert (0 <= u * Rabs n) by (apply Rmult_le_pos; lra). assert (U2 : 0 <= u * u) by (apply Rmult_le_pos; lra).
  assert (WM : Rabs (w / m) <= 1001 / 1000 * Rabs n + 11 / 10 * e).
  { replace (w / m) with (y + (w / m - y)) by ring. eapply Rle_trans; [apply Rabs_triang|]. rewrite YN. assert (u * Rabs n <= / 16777216 * Rabs n) by (apply Rmult_le_compat_r; lra). lra. }
  assert (u * Rabs (w / m) <= u * (1001 / 1000 * Rabs n + 11 / 10 * e)) by (apply Rmult_le_compat_l; lra). assert (u * e <= / 16777216 * (52 / 100 * (u * u))) by (apply Rmult_le_compat; lra). assert (u * u * u <= / 16777216 * (u * u)) by (rewrite (Rmult_comm (/ 16777216)); apply Rmult_le_compat_l; lra).
  replace (p - q) with ((p - w / m) + (w / m - y) - (q - y)) by ring.
  apply Rabs_le_inv in P, D, Q. apply Rabs_le. lra.
Qed.
Lemma twice_real u t m r q : 0 <= u <= / 16777216 -> 0 <= t -> Rabs (m - 1) <= 8 * u -> Rabs (q - r / m) <= 7 * u * Rabs (r / m) + t -> Rabs (q - r) <= 16 * u * Rabs r + t.
Proof.
  intros U T M Q. apply Rabs_le_inv in M as M'. assert (PM : 9999 / 10000 <= m) by lra. pose proof (Rabs_pos r) as R0. assert (P : 0 <= u * Rabs r) by (apply Rmult_le_pos; lra).
  assert (I : 0 < / m <= 1001 / 1000). { split; [apply Rinv_0_lt_compat; lra|]. apply Rmult_le_reg_r with m; [lra|]. rewrite Rinv_l by lra. lra. }
  assert (D : Rabs (r / m - r) <= 81 / 10 * u * Rabs r).
  { replace (r / m - r) with (r * (1 - m) * / m) by (field; lra). rewrite !Rabs_mult, (Rabs_pos_eq (/ m)) by lra. rewrite (Rabs_minus_sym 1 m).
    apply Rle_trans with (Rabs r * (8 * u) * (1001 / 1000)); [|lra]. apply Rmult_le_compat; [apply Rmult_le_pos; apply Rabs_pos | lra | apply Rmult_le_compat_l; assumption | lra]. }
  assert (K : Rabs (r / m) <= 1001 / 1000 * Rabs r). { unfold Rdiv. rewrite Rabs_mult, (Rabs_pos_eq (/ m)) by lra. rewrite Rmult_comm. apply Rmult_le_compat_r; lra. }
  assert (u * Rabs (r / m) <= u * (1001 / 1000 * Rabs r)) by (apply Rmult_le_compat_l; lra).
  replace (q - r) with ((q - r / m) + (r / m - r)) by ring. eapply Rle_trans; [apply Rabs_triang|]. lra.
Qed.
Lemma prod_near u t a b p q : 0 <= u <= / 16777216 -> 0 <= t -> t <= u * u * u -> Rabs a <= 1 -> Rabs b <= 1 -> Rabs (p - a) <= 7 * u * Rabs a + t -> Rabs (q - b) <= 7 * u * Rabs b + t ->
  Rabs (p * q - a * b) <= 141 / 10 * u * (Rabs a * Rabs b) + u * u / 10 /\ Rabs p * Rabs q <= 1001 / 1000 * (Rabs a * Rabs b) + u * u / 10.
Proof.
  intros U T TU A B P Q. pose proof (Rabs_pos a) as A0. pose proof (Rabs_pos b) as B0. assert (U2 : 0 <= u * u) by (apply Rmult_le_pos; lra). assert (U3 : u * u * u <= / 16777216 * (u * u)) by (rewrite (Rmult_comm (/ 16777216)); apply Rmult_le_compat_l; lra).
  assert (U4 : u * u <= / 16777216 * u) by (apply Rmult_le_compat_r; lra).
  set (X := Rabs a) in *. set (Y := Rabs b) in *. assert (XY : 0 <= X * Y) by (now apply Rmult_le_pos).
  assert (H1 : Rabs (p - a) * Rabs (q - b) <= (7 * u * X + t) * (7 * u * Y + t)) by (apply Rmult_le_compat; try apply Rabs_pos; assumption).
  assert (H2 : X * Rabs (q - b) <= X * (7 * u * Y + t)) by (apply Rmult_le_compat_l; assumption). assert (H3 : Rabs (p - a) * Y <= (7 * u * X + t) * Y) by (apply Rmult_le_compat_r; assumption).
  assert (Xt : X * t <= t) by (rewrite <- (Rmult_1_l t) at 2; apply Rmult_le_compat_r; assumption). assert (Yt : Y * t <= t) by (rewrite <- (Rmult_1_l t) at 2; apply Rmult_le_compat_r; assumption).
  assert (uXY0 : 0 <= u * (X * Y)) by (apply Rmult_le_pos; lra). assert (uXY : u * (X * Y) <= / 16777216 * (X * Y)) by (apply Rmult_le_compat_r; lra). assert (uuXY : u * (u * (X * Y)) <= u * (/ 16777216 * (X * Y))) by (apply Rmult_le_compat_l; lra).
  assert (uXt : u * (X * t) <= u * t) by (apply Rmult_le_compat_l; lra). assert (uYt : u * (Y * t) <= u * t) by (apply Rmult_le_compat_l; lra). assert (ut : u * t <= / 16777216 * t) by (apply Rmult_le_compat_r; lra). assert (tt : t * t <= / 16777216 * t) by (apply Rmult_le_compat_r; lra).
  assert (B1 : Rabs (p * q - a * b) <= 141 / 10 * u * (X * Y) + u * u / 10).
  { replace (p * q - a * b) with ((p - a) * (q - b) + (a * (q - b) + (p - a) * b)) by ring. eapply Rle_trans; [apply Rabs_triang|]. rewrite Rabs_mult.
    assert (Rabs (a * (q - b) + (p - a) * b) <= X * Rabs (q - b) + Rabs (p - a) * Y) by (eapply Rle_trans; [apply Rabs_triang|]; rewrite !Rabs_mult; apply Rle_refl). lra. }
  split; [exact B1|]. rewrite <- Rabs_mult. replace (p * q) with (a * b + (p * q - a * b)) by ring. eapply Rle_trans; [apply Rabs_triang|]. rewrite (Rabs_mult a b). fold X Y. lra.
Qed.
Lemma norm_mono2 (a b : Vector2 R) : (forall d, Rabs (vcoord2 a d) <= Rabs (vcoord2 b d)) -> Rnorm2 a <= Rnorm2 b.
Proof.
  intros H. assert (Q : forall x y, Rabs x <= Rabs y -> x ^ 2 <= y ^ 2). { intros x y L. rewrite <- !abs_sq. apply Rmult_le_compat; try apply Rabs_pos; exact L. }
  unfold Rnorm2. apply sqrt_le_1_alt. repeat apply Rplus_le_compat; apply Q; first [exact (H D2X) | exact (H D2Y)].
Qed.
Lemma hom2 (v w : Vector2 R) (s u t : R) : 0 <= u -> 0 <= t -> (forall d, Rabs (vcoord2 w d - s * vcoord2 v d) <= u * Rabs (s * vcoord2 v d) + t / 2) ->
  Rabs (Rnorm2 w - Rabs s * Rnorm2 v) <= u * (Rabs s * Rnorm2 v) + t.
Proof.
  intros U T H.
  set (sv := (mkVector2 (v2x v * (s)) (v2y v * (s)))). set (e := mkVector2 (v2x w - v2x sv) (v2y w - v2y sv)). set (f := mkVector2 (u * Rabs (v2x sv)) (u * Rabs (v2y sv))). set (g := mkVector2 (t / 2) (t / 2)).
  assert (Nsv : Rnorm2 sv = Rabs s * Rnorm2 v) by (apply Rnorm2_scale).
  assert (Ng : Rnorm2 g <= t). { unfold g, Rnorm2. cbn [v2x v2y ]. apply Rle_trans with (sqrt (t * t)); [|right; now apply sqrt_square]. apply sqrt_le_1_alt. assert (0 <= t * t) by (apply Rmult_le_pos; lra). lra. }
  assert (Nf : Rnorm2 f <= u * (Rabs s * Rnorm2 v)). { rewrite <- Nsv. apply Rle_trans with (Rabs u * Rnorm2 sv); [|right; now rewrite (Rabs_pos_eq u U)]. rewrite <- Rnorm2_scale. apply norm_mono2. intros []; unfold f; cbn [vcoord2 v2x v2y ]; rewrite !Rabs_mult, !Rabs_Rabsolu, ?(Rabs_pos_eq u U); lra. }
  assert (Ne : Rnorm2 e <= u * (Rabs s * Rnorm2 v) + t).
  { eapply Rle_trans; [|apply Rplus_le_compat; [exact Nf | exact Ng]]. eapply Rle_trans; [|apply triangle2]. apply norm_mono2. intros d.
    eapply Rle_trans; [|apply Rle_abs]. specialize (H d). destruct d; unfold e, f, g, sv; cbn [vcoord2 v2x v2y ] in *; match goal with |- context [?x - ?y * s] => replace (x - y * s) with (x - s * y) by ring; replace (y * s) with (s * y) by ring; exact H end. }
  assert (N1 : Rnorm2 w <= Rnorm2 sv + Rnorm2 e). { eapply Rle_trans; [|apply triangle2]. right. unfold e, sv, Rnorm2. cbn [v2x v2y ]. f_equal; ring. }
  assert (N2 : Rnorm2 sv <= Rnorm2 w + Rnorm2 e).
  { assert (Rnorm2 (mkVector2 (v2x e * (-1)) (v2y e * (-1))) = Rnorm2 e) as <- by (rewrite Rnorm2_scale, Rabs_left by lra; ring). eapply Rle_trans; [|apply triangle2]. right. unfold e, sv, Rnorm2. cbn [v2x v2y ]. f_equal; ring. }
  rewrite Nsv in *. apply Rabs_le. lra.
Qed.
(* the smallest subnormal against the length of a vector in range *)
Lemma t_len2 {A : arith} (v : Vector2 (num A)) : Finite (v2_dot v v) -> min_subnormal A <= unit_roundoff A * real_of (v2_dot v v) ->
  min_subnormal A <= 102 / 100 * (unit_roundoff A * unit_roundoff A) * Rnorm2 (RV2 v).
Proof.
  intros F T. pose proof (len2_t v v F F T T) as H. pose proof (u_pos (A:=A)) as U. pose proof (t_pos (A:=A)) as T0. pose proof (t_le_uuu (A:=A)) as TU. assert (N : 0 <= Rnorm2 (RV2 v)) by apply sqrt_pos.
  set (u := unit_roundoff A) in *. set (t := min_subnormal A) in *. set (L := Rnorm2 (RV2 v)) in *.
  destruct (Rle_or_lt t (102 / 100 * (u * u) * L)) as [|C]; [assumption|]. exfalso.
  assert (UU : 0 <= u * u) by (apply Rmult_le_pos; lra). assert (P0 : 0 <= 102 / 100 * (u * u) * L) by (apply Rmult_le_pos; lra).
  assert (t * t <= (101 / 100 * u * (L * L)) * (u * u * u)) by (apply Rmult_le_compat; assumption).
  assert ((102 / 100 * (u * u) * L) * (102 / 100 * (u * u) * L) < t * t) by (apply Rmult_le_0_lt_compat; lra).
  assert (0 <= (u * u) * (u * u) * (L * L)) by (apply Rmult_le_pos; apply Rmult_le_pos; assumption). nra.
Qed.
(* a scaled vector in range *)
Lemma scaled2 {A : arith} (v : Vector2 (num A)) (s : num A) : let w := v2_mul v s in Finite (v2_dot v v) -> Finite (v2_dot w w) -> min_subnormal A <= unit_roundoff A * real_of (v2_dot w w) ->
  Finite s /\ (forall d, Rabs (vcoord2 (RV2 w) d - real_of s * vcoord2 (RV2 v) d) <= unit_roundoff A * Rabs (real_of s * vcoord2 (RV2 v) d) + min_subnormal A / 2) /\
  Rabs (Rnorm2 (RV2 w) - Rabs (real_of s) * Rnorm2 (RV2 v)) <= unit_roundoff A * (Rabs (real_of s) * Rnorm2 (RV2 v)) + min_subnormal A /\
  min_subnormal A <= 103 / 100 * (unit_roundoff A * unit_roundoff A) * (Rabs (real_of s) * Rnorm2 (RV2 v)).
Proof.
  intros w F Fw Tw. pose proof (u_pos (A:=A)) as U. pose proof (t_pos (A:=A)) as T0. set (u := unit_roundoff A) in *. set (t := min_subnormal A) in *.
  assert (FW : forall d, Finite (vcoord2 w d)). { pose proof (dot_finite_inv2 w Fw) as FF. intros []; cbn; tauto. }
  assert (Fs : Finite s) by (destruct (err_mul _ _ (FW D2X)) as (_ & Fs & _); exact Fs).
  assert (E : forall d, Rabs (vcoord2 (RV2 w) d - real_of s * vcoord2 (RV2 v) d) <= u * Rabs (real_of s * vcoord2 (RV2 v) d) + t / 2).
  { intros d. assert (Q1 : forall x : Vector2 (num A), vcoord2 (RV2 x) d = real_of (vcoord2 x d)) by (intros; destruct d; reflexivity). rewrite !Q1. assert (Q2 : vcoord2 w d = smul (vcoord2 v d) s) by (destruct d; reflexivity).
    specialize (FW d). rewrite Q2 in FW |- *. destruct (err_mul _ _ FW) as (_ & _ & a & b & Ha & Hb & ->). fold u in Ha. fold t in Hb. rewrite (Rmult_comm (real_of s)). set (x := real_of (vcoord2 v d) * real_of s).
    replace (x * (1 + a) + b - x) with (a * x + b) by ring. eapply Rle_trans; [apply Rabs_triang|]. rewrite Rabs_mult. apply Rplus_le_compat; [apply Rmult_le_compat_r; [apply Rabs_pos | exact Ha] | exact Hb]. }
  pose proof (hom2 _ _ _ u t (proj1 U) T0 E) as H. split; [exact Fs|]. split; [exact E|]. split; [exact H|].
  pose proof (t_len2 w Fw Tw) as TL. fold u t in TL. set (K := Rabs (real_of s) * Rnorm2 (RV2 v)) in *. assert (PK : 0 <= K) by (apply Rmult_le_pos; [apply Rabs_pos | apply sqrt_pos]). set (M := Rnorm2 (RV2 w)) in *.
  apply Rabs_le_inv in H. assert (UU : 0 <= u * u <= / 16777216) by (split; [apply Rmult_le_pos; lra | apply Rle_trans with (u * / 16777216); [apply Rmult_le_compat_l; lra | lra]]).
  assert (u * u * M <= u * u * (K + u * K + t)) by (apply Rmult_le_compat_l; lra). assert (u * u * t <= / 16777216 * t) by (apply Rmult_le_compat_r; lra). assert (UK : 0 <= u * u * K) by (apply Rmult_le_pos; lra). assert (u * (u * u * K) <= / 16777216 * (u * u * K)) by (apply Rmult_le_compat_r; lra). lra.
Qed.
Lemma norm_mono3 (a b : Vector3 R) : (forall d, Rabs (vcoord3 a d) <= Rabs (vcoord3 b d)) -> Rnorm3 a <= Rnorm3 b.
Proof.
  intros H. assert (Q : forall x y, Rabs x <= Rabs y -> x ^ 2 <= y ^ 2). { intros x y L. rewrite <- !abs_sq. apply Rmult_le_compat; try apply Rabs_pos; exact L. }
  unfold Rnorm3. apply sqrt_le_1_alt. repeat apply Rplus_le_compat; apply Q; first [exact (H D3X) | exact (H D3Y) | exact (H D3Z)].
Qed.
Lemma hom3 (v w : Vector3 R) (s u t : R) : 0 <= u -> 0 <= t -> (forall d, Rabs (vcoord3 w d - s * vcoord3 v d) <= u * Rabs (s * vcoord3 v d) + t / 2) ->
  Rabs (Rnorm3 w - Rabs s * Rnorm3 v) <= u * (Rabs s * Rnorm3 v) + t.
Proof.
  intros U T H.
  set (sv := (mkVector3 (v3x v * (s)) (v3y v * (s)) (v3z v * (s)))). set (e := mkVector3 (v3x w - v3x sv) (v3y w - v3y sv) (v3z w - v3z sv)). set (f := mkVector3 (u * Rabs (v3x sv)) (u * Rabs (v3y sv)) (u * Rabs (v3z sv))). set (g := mkVector3 (t / 2) (t / 2) (t / 2)).
  assert (Nsv : Rnorm3 sv = Rabs s * Rnorm3 v) by (apply Rnorm3_scale).
  assert (Ng : Rnorm3 g <= t). { unfold g, Rnorm3. cbn [v3x v3y v3z p3z]. apply Rle_trans with (sqrt (t * t)); [|right; now apply sqrt_square]. apply sqrt_le_1_alt. assert (0 <= t * t) by (apply Rmult_le_pos; lra). lra. }
  assert (Nf : Rnorm3 f <= u * (Rabs s * Rnorm3 v)). { rewrite <- Nsv. apply Rle_trans with (Rabs u * Rnorm3 sv); [|right; now rewrite (Rabs_pos_eq u U)]. rewrite <- Rnorm3_scale. apply norm_mono3. intros []; unfold f; cbn [vcoord3 v3x v3y v3z p3z]; rewrite !Rabs_mult, !Rabs_Rabsolu, ?(Rabs_pos_eq u U); lra. }
  assert (Ne : Rnorm3 e <= u * (Rabs s * Rnorm3 v) + t).
  { eapply Rle_trans; [|apply Rplus_le_compat; [exact Nf | exact Ng]]. eapply Rle_trans; [|apply triangle3]. apply norm_mono3. intros d.
    eapply Rle_trans; [|apply Rle_abs]. specialize (H d). destruct d; unfold e, f, g, sv; cbn [vcoord3 v3x v3y v3z p3z] in *; match goal with |- context [?x - ?y * s] => replace (x - y * s) with (x - s * y) by ring; replace (y * s) with (s * y) by ring; exact H end. }
  assert (N1 : Rnorm3 w <= Rnorm3 sv + Rnorm3 e). { eapply Rle_trans; [|apply triangle3]. right. unfold e, sv, Rnorm3. cbn [v3x v3y v3z p3z]. f_equal; ring. }
  assert (N2 : Rnorm3 sv <= Rnorm3 w + Rnorm3 e).
  { assert (Rnorm3 (mkVector3 (v3x e * (-1)) (v3y e * (-1)) (v3z e * (-1))) = Rnorm3 e) as <- by (rewrite Rnorm3_scale, Rabs_left by lra; ring). eapply Rle_trans; [|apply triangle3]. right. unfold e, sv, Rnorm3. cbn [v3x v3y v3z p3z]. f_equal; ring. }
  rewrite Nsv in *. apply Rabs_le. lra.
Qed.
(* the smallest subnormal against the length of a vector in range *)
Lemma t_len3 {A : arith} (v : Vector3 (num A)) : Finite (v3_dot v v) -> min_subnormal A <= unit_roundoff A * real_of (v3_dot v v) ->
  min_subnormal A <= 102 / 100 * (unit_roundoff A * unit_roundoff A) * Rnorm3 (RV3 v).
Proof.
  intros F T. pose proof (len3_t v v F F T T) as H. pose proof (u_pos (A:=A)) as U. pose proof (t_pos (A:=A)) as T0. pose proof (t_le_uuu (A:=A)) as TU. assert (N : 0 <= Rnorm3 (RV3 v)) by apply sqrt_pos.
  set (u := unit_roundoff A) in *. set (t := min_subnormal A) in *. set (L := Rnorm3 (RV3 v)) in *.
  destruct (Rle_or_lt t (102 / 100 * (u * u) * L)) as [|C]; [assumption|]. exfalso.
  assert (UU : 0 <= u * u) by (apply Rmult_le_pos; lra). assert (P0 : 0 <= 102 / 100 * (u * u) * L) by (apply Rmult_le_pos; lra).
  assert (t * t <= (101 / 100 * u * (L * L)) * (u * u * u)) by (apply Rmult_le_compat; assumption).
  assert ((102 / 100 * (u * u) * L) * (102 / 100 * (u * u) * L) < t * t) by (apply Rmult_le_0_lt_compat; lra).
  assert (0 <= (u * u) * (u * u) * (L * L)) by (apply Rmult_le_pos; apply Rmult_le_pos; assumption). nra.
Qed.
(* a scaled vector in range *)
Lemma scaled3 {A : arith} (v : Vector3 (num A)) (s : num A) : let w := v3_mul v s in Finite (v3_dot v v) -> Finite (v3_dot w w) -> min_subnormal A <= unit_roundoff A * real_of (v3_dot w w) ->
  Finite s /\ (forall d, Rabs (vcoord3 (RV3 w) d - real_of s * vcoord3 (RV3 v) d) <= unit_roundoff A * Rabs (real_of s * vcoord3 (RV3 v) d) + min_subnormal A / 2) /\
  Rabs (Rnorm3 (RV3 w) - Rabs (real_of s) * Rnorm3 (RV3 v)) <= unit_roundoff A * (Rabs (real_of s) * Rnorm3 (RV3 v)) + min_subnormal A /\
  min_subnormal A <= 103 / 100 * (unit_roundoff A * unit_roundoff A) * (Rabs (real_of s) * Rnorm3 (RV3 v)).
Proof.
  intros w F Fw Tw. pose proof (u_pos (A:=A)) as U. pose proof (t_pos (A:=A)) as T0. set (u := unit_roundoff A) in *. set (t := min_subnormal A) in *.
  assert (FW : forall d, Finite (vcoord3 w d)). { pose proof (dot_finite_inv3 w Fw) as FF. intros []; cbn; tauto. }
  assert (Fs : Finite s) by (destruct (err_mul _ _ (FW D3X)) as (_ & Fs & _); exact Fs).
  assert (E : forall d, Rabs (vcoord3 (RV3 w) d - real_of s * vcoord3 (RV3 v) d) <= u * Rabs (real_of s * vcoord3 (RV3 v) d) + t / 2).
  { intros d. assert (Q1 : forall x : Vector3 (num A), vcoord3 (RV3 x) d = real_of (vcoord3 x d)) by (intros; destruct d; reflexivity). rewrite !Q1. assert (Q2 : vcoord3 w d = smul (vcoord3 v d) s) by (destruct d; reflexivity).
    specialize (FW d). rewrite Q2 in FW |- *. destruct (err_mul _ _ FW) as (_ & _ & a & b & Ha & Hb & ->). fold u in Ha. fold t in Hb. rewrite (Rmult_comm (real_of s)). set (x := real_of (vcoord3 v d) * real_of s).
    replace (x * (1 + a) + b - x) with (a * x + b) by ring. eapply Rle_trans; [apply Rabs_triang|]. rewrite Rabs_mult. apply Rplus_le_compat; [apply Rmult_le_compat_r; [apply Rabs_pos | exact Ha] | exact Hb]. }
  pose proof (hom3 _ _ _ u t (proj1 U) T0 E) as H. split; [exact Fs|]. split; [exact E|]. split; [exact H|].
  pose proof (t_len3 w Fw Tw) as TL. fold u t in TL. set (K := Rabs (real_of s) * Rnorm3 (RV3 v)) in *. assert (PK : 0 <= K) by (apply Rmult_le_pos; [apply Rabs_pos | apply sqrt_pos]). set (M := Rnorm3 (RV3 w)) in *.
  apply Rabs_le_inv in H. assert (UU : 0 <= u * u <= / 16777216) by (split; [apply Rmult_le_pos; lra | apply Rle_trans with (u * / 16777216); [apply Rmult_le_compat_l; lra | lra]]).
  assert (u * u * M <= u * u * (K + u * K + t)) by (apply Rmult_le_compat_l; lra). assert (u * u * t <= / 16777216 * t) by (apply Rmult_le_compat_r; lra). assert (UK : 0 <= u * u * K) by (apply Rmult_le_pos; lra). assert (u * (u * u * K) <= / 16777216 * (u * u * K)) by (apply Rmult_le_compat_r; lra). lra.
Qed.
Lemma C101_length_of_scaled_2d_pf : forall (A : arith) (v : Vector2 (num A)) (s : num A), let w := v2_mul v s in
  Finite (v2_dot v v) -> min_subnormal A <= unit_roundoff A * real_of (v2_dot v v) -> Finite (v2_dot w w) -> min_subnormal A <= unit_roundoff A * real_of (v2_dot w w) ->
  Rabs (real_of (v2_length w) - Rabs (real_of s) * real_of (v2_length v)) <= 12 * unit_roundoff A * (Rabs (real_of s) * real_of (v2_length v)).
Proof.
  intros A v s w F T Fw Tw. destruct (scaled2 v s F Fw Tw) as (_ & _ & H & TK). fold w in H. destruct (C55_length_accurate_2d_pf A v F T) as [_ E]. destruct (C55_length_accurate_2d_pf A w Fw Tw) as [_ Ew].
  pose proof (u_pos (A:=A)) as U. pose proof (t_pos (A:=A)) as T0. set (u := unit_roundoff A) in *. set (t := min_subnormal A) in *. set (L := Rnorm2 (RV2 v)) in *. set (M := Rnorm2 (RV2 w)) in *. set (a := Rabs (real_of s)) in *. assert (a0 : 0 <= a) by apply Rabs_pos. assert (L0 : 0 <= L) by apply sqrt_pos.
  assert (K0 : 0 <= a * L) by now apply Rmult_le_pos. assert (uK : 0 <= u * (a * L)) by (apply Rmult_le_pos; lra). assert (uuK : u * (u * (a * L)) <= / 16777216 * (u * (a * L))) by (apply Rmult_le_compat_r; lra).
  assert (E' : Rabs (a * real_of (v2_length v) - a * L) <= 5 * u * (a * L)). { replace (a * real_of (v2_length v) - a * L) with (a * (real_of (v2_length v) - L)) by ring. rewrite Rabs_mult, (Rabs_pos_eq a) by exact a0. replace (5 * u * (a * L)) with (a * (5 * u * L)) by ring. now apply Rmult_le_compat_l. }
  set (l := a * real_of (v2_length v)) in *. apply Rabs_le_inv in H, Ew, E'.
  assert (uM : u * M <= u * (1001 / 1000 * (a * L))). { apply Rmult_le_compat_l; [lra|]. assert (u * (a * L) <= / 16777216 * (a * L)) by (apply Rmult_le_compat_r; lra). lra. }
  assert (ul : u * (999 / 1000 * (a * L)) <= u * l). { apply Rmult_le_compat_l; [lra|]. assert (u * (a * L) <= / 16777216 * (a * L)) by (apply Rmult_le_compat_r; lra). lra. }
  apply Rabs_le. lra.
Qed.
Lemma C101_length_of_scaled_3d_pf : forall (A : arith) (v : Vector3 (num A)) (s : num A), let w := v3_mul v s in
  Finite (v3_dot v v) -> min_subnormal A <= unit_roundoff A * real_of (v3_dot v v) -> Finite (v3_dot w w) -> min_subnormal A <= unit_roundoff A * real_of (v3_dot w w) ->
  Rabs (real_of (v3_length w) - Rabs (real_of s) * real_of (v3_length v)) <= 12 * unit_roundoff A * (Rabs (real_of s) * real_of (v3_length v)).
Proof.
  intros A v s w F T Fw Tw. destruct (scaled3 v s F Fw Tw) as (_ & _ & H & TK). fold w in H. destruct (C55_length_accurate_3d_pf A v F T) as [_ E]. destruct (C55_length_accurate_3d_pf A w Fw Tw) as [_ Ew].
  pose proof (u_pos (A:=A)) as U. pose proof (t_pos (A:=A)) as T0. set (u := unit_roundoff A) in *. set (t := min_subnormal A) in *. set (L := Rnorm3 (RV3 v)) in *. set (M := Rnorm3 (RV3 w)) in *. set (a := Rabs (real_of s)) in *. assert (a0 : 0 <= a) by apply Rabs_pos. assert (L0 : 0 <= L) by apply sqrt_pos.
  assert (K0 : 0 <= a * L) by now apply Rmult_le_pos. assert (uK : 0 <= u * (a * L)) by (apply Rmult_le_pos; lra). assert (uuK : u * (u * (a * L)) <= / 16777216 * (u * (a * L))) by (apply Rmult_le_compat_r; lra).
  assert (E' : Rabs (a * real_of (v3_length v) - a * L) <= 5 * u * (a * L)). { replace (a * real_of (v3_length v) - a * L) with (a * (real_of (v3_length v) - L)) by ring. rewrite Rabs_mult, (Rabs_pos_eq a) by exact a0. replace (5 * u * (a * L)) with (a * (5 * u * L)) by ring. now apply Rmult_le_compat_l. }
  set (l := a * real_of (v3_length v)) in *. apply Rabs_le_inv in H, Ew, E'.
  assert (uM : u * M <= u * (1001 / 1000 * (a * L))). { apply Rmult_le_compat_l; [lra|]. assert (u * (a * L) <= / 16777216 * (a * L)) by (apply Rmult_le_compat_r; lra). lra. }
  assert (ul : u * (999 / 1000 * (a * L)) <= u * l). { apply Rmult_le_compat_l; [lra|]. assert (u * (a * L) <= / 16777216 * (a * L)) by (apply Rmult_le_compat_r; lra). lra. }
  apply Rabs_le. lra.
Qed.
Lemma C101_normalize_of_scaled_2d_pf : forall (A : arith) (v : Vector2 (num A)) (s : num A), let w := v2_mul v s in
  Finite (v2_dot v v) -> min_subnormal A <= unit_roundoff A * real_of (v2_dot v v) -> 0 < Rnorm2 (RV2 v) ->
  Finite (v2_dot w w) -> min_subnormal A <= unit_roundoff A * real_of (v2_dot w w) -> 0 < Rnorm2 (RV2 w) ->
  forall d, let n := vcoord2 (RV2 v) d / Rnorm2 (RV2 v) in let u := unit_roundoff A in
  (0 < real_of s -> Rabs (real_of (vcoord2 (v2_normalize w) d) - real_of (vcoord2 (v2_normalize v) d)) <= 17 * u * Rabs n + u * u) /\
  (real_of s < 0 -> Rabs (real_of (vcoord2 (v2_normalize w) d) + real_of (vcoord2 (v2_normalize v) d)) <= 17 * u * Rabs n + u * u).
Proof.
  intros A v s w F T P Fw Tw Pw d n u. destruct (scaled2 v s F Fw Tw) as (_ & E & H & TK). fold w in H, E. specialize (E d).
  destruct (C24_normalize_accurate_2d_pf A v F T P) as (_ & N & _). destruct (C24_normalize_accurate_2d_pf A w Fw Tw Pw) as (_ & Nw & _). specialize (N d). specialize (Nw d). cbv zeta in N, Nw. fold n in N. fold u in N, Nw, E, H, TK.
  assert (Q1 : forall x : Vector2 (num A), vcoord2 (RV2 x) d = real_of (vcoord2 x d)) by (intros; destruct d; reflexivity). rewrite (Q1 (v2_normalize v)) in N. rewrite (Q1 (v2_normalize w)) in Nw.
  set (p := real_of (vcoord2 (v2_normalize w) d)) in *. set (q := real_of (vcoord2 (v2_normalize v) d)) in *. pose proof (u_pos (A:=A)) as U. pose proof (t_pos (A:=A)) as T0. pose proof (t_le_uuu (A:=A)) as TU. fold u in U, TU.
  pose proof (comp_le_norm2 (RV2 v) d) as C. set (L := Rnorm2 (RV2 v)) in *. set (M := Rnorm2 (RV2 w)) in *. set (W := vcoord2 (RV2 w) d) in *. set (x := vcoord2 (RV2 v) d) in *. set (t := min_subnormal A) in *. set (r := real_of s) in *.
  assert (N1 : Rabs n <= 1). { unfold n, Rdiv. rewrite Rabs_mult, (Rabs_pos_eq (/ L)) by (left; apply Rinv_0_lt_compat; lra). apply div_le; lra. }
  assert (G : forall g, g = 1 \/ g = -1 -> 0 < g * r -> Rabs (p - g * q) <= 17 * u * Rabs n + u * u).
  { intros g G R. assert (GG : g * g = 1) by (destruct G as [-> | ->]; lra). assert (Ar : Rabs r = g * r). { destruct G as [-> | ->]; [rewrite Rabs_pos_eq; lra | rewrite Rabs_left; lra]. } assert (Ag : Rabs g = 1) by (destruct G as [-> | ->]; [apply Rabs_R1 | rewrite Rabs_left; lra]).
    set (K := Rabs r * L) in *. assert (PK : 0 < K) by (unfold K; rewrite Ar; apply Rmult_lt_0_compat; lra).
    assert (I : forall z, 0 <= z -> z / K * K = z) by (intros; field; lra).
    apply (dir_real u t n (g * n) (W / K) (M / K) p (g * q) (52 / 100 * (u * u))); try assumption.
    - assert (0 <= u * u) by (apply Rmult_le_pos; lra). lra.
    - rewrite Rabs_mult, Ag. ring.
    - replace (W / K - g * n) with ((W - r * x) / K). 2: { unfold n, K. rewrite Ar. destruct G as [-> | ->]; field; lra. }
      unfold Rdiv at 1. rewrite Rabs_mult, (Rabs_pos_eq (/ K)) by (left; apply Rinv_0_lt_compat; lra). apply div_le; [exact PK|]. eapply Rle_trans; [exact E|].
      replace (Rabs (g * n)) with (Rabs n) by (rewrite Rabs_mult, Ag; ring). assert (XK : Rabs (r * x) = Rabs n * K). { unfold n, K, Rdiv. rewrite !Rabs_mult, (Rabs_pos_eq (/ L)) by (left; apply Rinv_0_lt_compat; lra). field. lra. }
      rewrite XK. lra.
    - replace (M / K - 1) with ((M - K) / K) by (field; lra). unfold Rdiv. rewrite Rabs_mult, (Rabs_pos_eq (/ K)) by (left; apply Rinv_0_lt_compat; lra). apply div_le; [exact PK|]. eapply Rle_trans; [exact H|].
      assert (0 <= u * K) by (apply Rmult_le_pos; lra). assert (u * (u * K) <= / 16777216 * (u * K)) by (apply Rmult_le_compat_r; lra). lra.
    - replace (W / K / (M / K)) with (W / M) by (field; lra). exact Nw.
    - replace (g * q - g * n) with (g * (q - n)) by ring. rewrite !Rabs_mult, Ag. lra. }
  split; intros R; [specialize (G 1 (or_introl eq_refl)) | specialize (G (-1) (or_intror eq_refl))]; [replace (p - q) with (p - 1 * q) by ring | replace (p + q) with (p - -1 * q) by ring]; apply G; lra.
Qed.
Lemma C101_normalize_of_scaled_3d_pf : forall (A : arith) (v : Vector3 (num A)) (s : num A), let w := v3_mul v s in
  Finite (v3_dot v v) -> min_subnormal A <= unit_roundoff A * real_of (v3_dot v v) -> 0 < Rnorm3 (RV3 v) ->
  Finite (v3_dot w w) -> min_subnormal A <= unit_roundoff A * real_of (v3_dot w w) -> 0 < Rnorm3 (RV3 w) ->
  forall d, let n := vcoord3 (RV3 v) d / Rnorm3 (RV3 v) in let u := unit_roundoff A in
  (0 < real_of s -> Rabs (real_of (vcoord3 (v3_normalize w) d) - real_of (vcoord3 (v3_normalize v) d)) <= 17 * u * Rabs n + u * u) /\
  (real_of s < 0 -> Rabs (real_of (vcoord3 (v3_normalize w) d) + real_of (vcoord3 (v3_normalize v) d)) <= 17 * u * Rabs n + u * u).
Proof.
  intros A v s w F T P Fw Tw Pw d n u. destruct (scaled3 v s F Fw Tw) as (_ & E & H & TK). fold w in H, E. specialize (E d).
  destruct (C24_normalize_accurate_3d_pf A v F T P) as (_ & N & _). destruct (C24_normalize_accurate_3d_pf A w Fw Tw Pw) as (_ & Nw & _). specialize (N d). specialize (Nw d). cbv zeta in N, Nw. fold n in N. fold u in N, Nw, E, H, TK.
  assert (Q1 : forall x : Vector3 (num A), vcoord3 (RV3 x) d = real_of (vcoord3 x d)) by (intros; destruct d; reflexivity). rewrite (Q1 (v3_normalize v)) in N. rewrite (Q1 (v3_normalize w)) in Nw.
  set (p := real_of (vcoord3 (v3_normalize w) d)) in *. set (q := real_of (vcoord3 (v3_normalize v) d)) in *. pose proof (u_pos (A:=A)) as U. pose proof (t_pos (A:=A)) as T0. pose proof (t_le_uuu (A:=A)) as TU. fold u in U, TU.
  pose proof (comp_le_norm3 (RV3 v) d) as C. set (L := Rnorm3 (RV3 v)) in *. set (M := Rnorm3 (RV3 w)) in *. set (W := vcoord3 (RV3 w) d) in *. set (x := vcoord3 (RV3 v) d) in *. set (t := min_subnormal A) in *. set (r := real_of s) in *.
  assert (N1 : Rabs n <= 1). { unfold n, Rdiv. rewrite Rabs_mult, (Rabs_pos_eq (/ L)) by (left; apply Rinv_0_lt_compat; lra). apply div_le; lra. }
  assert (G : forall g, g = 1 \/ g = -1 -> 0 < g * r -> Rabs (p - g * q) <= 17 * u * Rabs n + u * u).
  { intros g G R. assert (GG : g * g = 1) by (destruct G as [-> | ->]; lra). assert (Ar : Rabs r = g * r). { destruct G as [-> | ->]; [rewrite Rabs_pos_eq; lra | rewrite Rabs_left; lra]. } assert (Ag : Rabs g = 1) by (destruct G as [-> | ->]; [apply Rabs_R1 | rewrite Rabs_left; lra]).
    set (K := Rabs r * L) in *. assert (PK : 0 < K) by (unfold K; rewrite Ar; apply Rmult_lt_0_compat; lra).
    assert (I : forall z, 0 <= z -> z / K * K = z) by (intros; field; lra).
    apply (dir_real u t n (g * n) (W / K) (M / K) p (g * q) (52 / 100 * (u * u))); try assumption.
    - assert (0 <= u * u) by (apply Rmult_le_pos; lra). lra.
    - rewrite Rabs_mult, Ag. ring.
    - replace (W / K - g * n) with ((W - r * x) / K). 2: { unfold n, K. rewrite Ar. destruct G as [-> | ->]; field; lra. }
      unfold Rdiv at 1. rewrite Rabs_mult, (Rabs_pos_eq (/ K)) by (left; apply Rinv_0_lt_compat; lra). apply div_le; [exact PK|]. eapply Rle_trans; [exact E|].
      replace (Rabs (g * n)) with (Rabs n) by (rewrite Rabs_mult, Ag; ring). assert (XK : Rabs (r * x) = Rabs n * K). { unfold n, K, Rdiv. rewrite !Rabs_mult, (Rabs_pos_eq (/ L)) by (left; apply Rinv_0_lt_compat; lra). field. lra. }
      rewrite XK. lra.
    - replace (M / K - 1) with ((M - K) / K) by (field; lra). unfold Rdiv. rewrite Rabs_mult, (Rabs_pos_eq (/ K)) by (left; apply Rinv_0_lt_compat; lra). apply div_le; [exact PK|]. eapply Rle_trans; [exact H|].
      assert (0 <= u * K) by (apply Rmult_le_pos; lra). assert (u * (u * K) <= / 16777216 * (u * K)) by (apply Rmult_le_compat_r; lra). lra.
    - replace (W / K / (M / K)) with (W / M) by (field; lra). exact Nw.
    - replace (g * q - g * n) with (g * (q - n)) by ring. rewrite !Rabs_mult, Ag. lra. }
  split; intros R; [specialize (G 1 (or_introl eq_refl)) | specialize (G (-1) (or_intror eq_refl))]; [replace (p - q) with (p - 1 * q) by ring | replace (p + q) with (p - -1 * q) by ring]; apply G; lra.
Qed.
Lemma C101_normalize_twice_2d_pf : forall (A : arith) (v : Vector2 (num A)), Finite (v2_dot v v) -> min_subnormal A <= unit_roundoff A * real_of (v2_dot v v) -> 0 < Rnorm2 (RV2 v) ->
  let n := v2_normalize v in VFinite2 (v2_normalize n) /\
  forall d, Rabs (real_of (vcoord2 (v2_normalize n) d) - real_of (vcoord2 n d)) <= 16 * unit_roundoff A * Rabs (real_of (vcoord2 n d)) + min_subnormal A.
Proof.
  intros A v F T P n. destruct (C24_normalize_accurate_2d_pf A v F T P) as (Fn & _ & N). fold n in Fn, N.
  assert (HH : forall x, x = v \/ x = v -> Finite (v2_dot x x) /\ min_subnormal A <= unit_roundoff A * real_of (v2_dot x x) /\ 0 < Rnorm2 (RV2 x)) by (intros x [-> | ->]; tauto).
  destruct (C77_unit_dot_2d_pf A v v HH) as [Fd _]. fold n in Fd. pose proof (u_pos (A:=A)) as U. pose proof (t_pos (A:=A)) as T0. pose proof (t_le_uuu (A:=A)) as TU. apply Rabs_le_inv in N as N'.
  assert (Pn : 0 < Rnorm2 (RV2 n)) by lra.
  assert (Tn : min_subnormal A <= unit_roundoff A * real_of (v2_dot n n)).
  { pose proof (dot2_err n n Fd) as E. destruct (Rnorm2_sq (RV2 n)) as (Q1 & Q2 & _). rewrite Q2, Q1 in E. set (u := unit_roundoff A) in *. set (t := min_subnormal A) in *. set (m := Rnorm2 (RV2 n)) in *.
    assert (S : 999 / 1000 <= m * m). { apply Rle_trans with (9999 / 10000 * (9999 / 10000)); [lra|]. apply Rmult_le_compat; lra. }
    assert (uu : u * u <= u * / 16777216) by (apply Rmult_le_compat_l; lra). assert (uuu : u * u * u <= (u * / 16777216) * 1) by (apply Rmult_le_compat; try lra; apply Rmult_le_pos; lra).
    apply Rabs_le_inv in E. assert (um : u * (m * m) <= / 16777216 * (m * m)) by (apply Rmult_le_compat_r; lra). assert (D : 99 / 100 <= real_of (v2_dot n n)) by lra.
    assert (u * (99 / 100) <= u * real_of (v2_dot n n)) by (apply Rmult_le_compat_l; lra). lra. }
  destruct (C24_normalize_accurate_2d_pf A n Fd Tn Pn) as (Fnn & Nn & _). split; [exact Fnn|]. intros d. specialize (Nn d). cbv zeta in Nn.
  assert (Q1 : forall x : Vector2 (num A), vcoord2 (RV2 x) d = real_of (vcoord2 x d)) by (intros; destruct d; reflexivity). rewrite !Q1 in Nn. exact (twice_real _ _ _ _ _ U T0 N Nn).
Qed.
Lemma C101_normalize_twice_3d_pf : forall (A : arith) (v : Vector3 (num A)), Finite (v3_dot v v) -> min_subnormal A <= unit_roundoff A * real_of (v3_dot v v) -> 0 < Rnorm3 (RV3 v) ->
  let n := v3_normalize v in VFinite3 (v3_normalize n) /\
  forall d, Rabs (real_of (vcoord3 (v3_normalize n) d) - real_of (vcoord3 n d)) <= 16 * unit_roundoff A * Rabs (real_of (vcoord3 n d)) + min_subnormal A.
Proof.
  intros A v F T P n. destruct (C24_normalize_accurate_3d_pf A v F T P) as (Fn & _ & N). fold n in Fn, N.
  assert (HH : forall x, x = v \/ x = v -> Finite (v3_dot x x) /\ min_subnormal A <= unit_roundoff A * real_of (v3_dot x x) /\ 0 < Rnorm3 (RV3 x)) by (intros x [-> | ->]; tauto).
  destruct (C77_unit_dot_3d_pf A v v HH) as [Fd _]. fold n in Fd. pose proof (u_pos (A:=A)) as U. pose proof (t_pos (A:=A)) as T0. pose proof (t_le_uuu (A:=A)) as TU. apply Rabs_le_inv in N as N'.
  assert (Pn : 0 < Rnorm3 (RV3 n)) by lra.
  assert (Tn : min_subnormal A <= unit_roundoff A * real_of (v3_dot n n)).
  { pose proof (dot3_err n n Fd) as E. destruct (Rnorm3_sq (RV3 n)) as (Q1 & Q2 & _). rewrite Q2, Q1 in E. set (u := unit_roundoff A) in *. set (t := min_subnormal A) in *. set (m := Rnorm3 (RV3 n)) in *.
    assert (S : 999 / 1000 <= m * m). { apply Rle_trans with (9999 / 10000 * (9999 / 10000)); [lra|]. apply Rmult_le_compat; lra. }
    assert (uu : u * u <= u * / 16777216) by (apply Rmult_le_compat_l; lra). assert (uuu : u * u * u <= (u * / 16777216) * 1) by (apply Rmult_le_compat; try lra; apply Rmult_le_pos; lra).
    apply Rabs_le_inv in E. assert (um : u * (m * m) <= / 16777216 * (m * m)) by (apply Rmult_le_compat_r; lra). assert (D : 99 / 100 <= real_of (v3_dot n n)) by lra.
    assert (u * (99 / 100) <= u * real_of (v3_dot n n)) by (apply Rmult_le_compat_l; lra). lra. }
  destruct (C24_normalize_accurate_3d_pf A n Fd Tn Pn) as (Fnn & Nn & _). split; [exact Fnn|]. intros d. specialize (Nn d). cbv zeta in Nn.
  assert (Q1 : forall x : Vector3 (num A), vcoord3 (RV3 x) d = real_of (vcoord3 x d)) by (intros; destruct d; reflexivity). rewrite !Q1 in Nn. exact (twice_real _ _ _ _ _ U T0 N Nn).
Qed.
Lemma C101_cosine_2d_pf : forall (A : arith) (a b : Vector2 (num A)), Finite (v2_dot a a) -> min_subnormal A <= unit_roundoff A * real_of (v2_dot a a) -> 0 < Rnorm2 (RV2 a) ->
  Finite (v2_dot b b) -> min_subnormal A <= unit_roundoff A * real_of (v2_dot b b) -> 0 < Rnorm2 (RV2 b) ->
  Finite (v2_dot (v2_normalize a) (v2_normalize b)) /\
  Rabs (real_of (v2_dot (v2_normalize a) (v2_normalize b)) - Rdot2 (RV2 a) (RV2 b) / (Rnorm2 (RV2 a) * Rnorm2 (RV2 b))) <= 18 * unit_roundoff A.
Proof.
  intros A a b F T P F' T' P'.
  assert (HH : forall x, x = a \/ x = b -> Finite (v2_dot x x) /\ min_subnormal A <= unit_roundoff A * real_of (v2_dot x x) /\ 0 < Rnorm2 (RV2 x)) by (intros x [-> | ->]; tauto).
  destruct (C77_unit_dot_2d_pf A a b HH) as [Fd _]. split; [exact Fd|]. pose proof (dot2_err _ _ Fd) as E.
  destruct (C24_normalize_accurate_2d_pf A a F T P) as (_ & N & _). destruct (C24_normalize_accurate_2d_pf A b F' T' P') as (_ & N' & _). cbv zeta in N, N'.
  set (n := v2_normalize a) in *. set (m := v2_normalize b) in *. pose proof (u_pos (A:=A)) as U. pose proof (t_pos (A:=A)) as T0. pose proof (t_le_uuu (A:=A)) as TU.
  set (u := unit_roundoff A) in *. set (t := min_subnormal A) in *. set (x := RV2 a) in *. set (y := RV2 b) in *. set (L := Rnorm2 x) in *. set (M := Rnorm2 y) in *.
  assert (B1 : forall d, Rabs (vcoord2 x d / L) <= 1). { intros d. unfold Rdiv. rewrite Rabs_mult, (Rabs_pos_eq (/ L)) by (left; apply Rinv_0_lt_compat; lra). apply div_le; [lra|]. rewrite Rmult_1_l. apply comp_le_norm2. }
  assert (B2 : forall d, Rabs (vcoord2 y d / M) <= 1). { intros d. unfold Rdiv. rewrite Rabs_mult, (Rabs_pos_eq (/ M)) by (left; apply Rinv_0_lt_compat; lra). apply div_le; [lra|]. rewrite Rmult_1_l. apply comp_le_norm2. }
  pose proof (fun d => prod_near u t _ _ _ _ U T0 TU (B1 d) (B2 d) (N d) (N' d)) as PN.
  pose proof (absdot2 x y) as [_ CS]. fold L M in CS. assert (SUM : Rabs (vcoord2 x D2X / L) * Rabs (vcoord2 y D2X / M) + Rabs (vcoord2 x D2Y / L) * Rabs (vcoord2 y D2Y / M) <= 1).
  { assert (IL : 0 < / L) by (apply Rinv_0_lt_compat; lra). assert (IM : 0 < / M) by (apply Rinv_0_lt_compat; lra). unfold Rdiv. rewrite !Rabs_mult, (Rabs_pos_eq (/ L)), (Rabs_pos_eq (/ M)) by lra.
    assert (Q : Rdot2 (absV2 x) (absV2 y) * (/ L * / M) <= 1). { apply Rle_trans with ((L * M) * (/ L * / M)); [apply Rmult_le_compat_r; [left; now apply Rmult_lt_0_compat | exact CS] | right; field; lra]. }
    unfold Rdot2, absV2 in Q. cbn [v2x v2y ] in Q. cbn [vcoord2]. lra. }
  assert (EQ : Rdot2 x y / (L * M) = vcoord2 x D2X / L * (vcoord2 y D2X / M) + vcoord2 x D2Y / L * (vcoord2 y D2Y / M)) by (unfold Rdot2; cbn [vcoord2]; field; lra).
  rewrite EQ. unfold Rdot2, absV2 in E. cbn [v2x v2y ] in E. destruct (PN D2X) as [Px1 Px2]. destruct (PN D2Y) as [Py1 Py2]. cbn [vcoord2] in *.
  assert (U2 : 0 <= u * u <= / 16777216 * u) by (split; [apply Rmult_le_pos; lra | apply Rmult_le_compat_r; lra]). assert (U3 : u * u * u <= / 16777216 * (u * u)) by (rewrite (Rmult_comm (/ 16777216)); apply Rmult_le_compat_l; lra).
  assert (SN : Rabs (v2x (RV2 n)) * Rabs (v2x (RV2 m)) + Rabs (v2y (RV2 n)) * Rabs (v2y (RV2 m)) <= 1002 / 1000) by lra. assert (u * (Rabs (v2x (RV2 n)) * Rabs (v2x (RV2 m)) + Rabs (v2y (RV2 n)) * Rabs (v2y (RV2 m))) <= u * (1002 / 1000)) by (apply Rmult_le_compat_l; lra). assert (u * (Rabs (vcoord2 x D2X / L) * Rabs (vcoord2 y D2X / M) + Rabs (vcoord2 x D2Y / L) * Rabs (vcoord2 y D2Y / M)) <= u * 1) by (apply Rmult_le_compat_l; [lra | exact SUM]). cbn [vcoord2] in *.
  apply Rabs_le_inv in E, Px1, Py1. apply Rabs_le. lra.
Qed.
Lemma C101_cosine_3d_pf : forall (A : arith) (a b : Vector3 (num A)), Finite (v3_dot a a) -> min_subnormal A <= unit_roundoff A * real_of (v3_dot a a) -> 0 < Rnorm3 (RV3 a) ->
  Finite (v3_dot b b) -> min_subnormal A <= unit_roundoff A * real_of (v3_dot b b) -> 0 < Rnorm3 (RV3 b) ->
  Finite (v3_dot (v3_normalize a) (v3_normalize b)) /\
  Rabs (real_of (v3_dot (v3_normalize a) (v3_normalize b)) - Rdot3 (RV3 a) (RV3 b) / (Rnorm3 (RV3 a) * Rnorm3 (RV3 b))) <= 18 * unit_roundoff A.
Proof.
  intros A a b F T P F' T' P'.
  assert (HH : forall x, x = a \/ x = b -> Finite (v3_dot x x) /\ min_subnormal A <= unit_roundoff A * real_of (v3_dot x x) /\ 0 < Rnorm3 (RV3 x)) by (intros x [-> | ->]; tauto).
  destruct (C77_unit_dot_3d_pf A a b HH) as [Fd _]. split; [exact Fd|]. pose proof (dot3_err _ _ Fd) as E.
  destruct (C24_normalize_accurate_3d_pf A a F T P) as (_ & N & _). destruct (C24_normalize_accurate_3d_pf A b F' T' P') as (_ & N' & _). cbv zeta in N, N'.
  set (n := v3_normalize a) in *. set (m := v3_normalize b) in *. pose proof (u_pos (A:=A)) as U. pose proof (t_pos (A:=A)) as T0. pose proof (t_le_uuu (A:=A)) as TU.
  set (u := unit_roundoff A) in *. set (t := min_subnormal A) in *. set (x := RV3 a) in *. set (y := RV3 b) in *. set (L := Rnorm3 x) in *. set (M := Rnorm3 y) in *.
  assert (B1 : forall d, Rabs (vcoord3 x d / L) <= 1). { intros d. unfold Rdiv. rewrite Rabs_mult, (Rabs_pos_eq (/ L)) by (left; apply Rinv_0_lt_compat; lra). apply div_le; [lra|]. rewrite Rmult_1_l. apply comp_le_norm3. }
  assert (B2 : forall d, Rabs (vcoord3 y d / M) <= 1). { intros d. unfold Rdiv. rewrite Rabs_mult, (Rabs_pos_eq (/ M)) by (left; apply Rinv_0_lt_compat; lra). apply div_le; [lra|]. rewrite Rmult_1_l. apply comp_le_norm3. }
  pose proof (fun d => prod_near u t _ _ _ _ U T0 TU (B1 d) (B2 d) (N d) (N' d)) as PN.
  pose proof (absdot3 x y) as [_ CS]. fold L M in CS. assert (SUM : Rabs (vcoord3 x D3X / L) * Rabs (vcoord3 y D3X / M) + Rabs (vcoord3 x D3Y / L) * Rabs (vcoord3 y D3Y / M) + Rabs (vcoord3 x D3Z / L) * Rabs (vcoord3 y D3Z / M) <= 1).
  { assert (IL : 0 < / L) by (apply Rinv_0_lt_compat; lra). assert (IM : 0 < / M) by (apply Rinv_0_lt_compat; lra). unfold Rdiv. rewrite !Rabs_mult, (Rabs_pos_eq (/ L)), (Rabs_pos_eq (/ M)) by lra.
    assert (Q : Rdot3 (absV3 x) (absV3 y) * (/ L * / M) <= 1). { apply Rle_trans with ((L * M) * (/ L * / M)); [apply Rmult_le_compat_r; [left; now apply Rmult_lt_0_compat | exact CS] | right; field; lra]. }
    unfold Rdot3, absV3 in Q. cbn [v3x v3y v3z p3z] in Q. cbn [vcoord3]. lra. }
  assert (EQ : Rdot3 x y / (L * M) = vcoord3 x D3X / L * (vcoord3 y D3X / M) + vcoord3 x D3Y / L * (vcoord3 y D3Y / M) + vcoord3 x D3Z / L * (vcoord3 y D3Z / M)) by (unfold Rdot3; cbn [vcoord3]; field; lra).
  rewrite EQ. unfold Rdot3, absV3 in E. cbn [v3x v3y v3z p3z] in E. destruct (PN D3X) as [Px1 Px2]. destruct (PN D3Y) as [Py1 Py2]. destruct (PN D3Z) as [Pz1 Pz2]. cbn [vcoord3] in *.
  assert (U2 : 0 <= u * u <= / 16777216 * u) by (split; [apply Rmult_le_pos; lra | apply Rmult_le_compat_r; lra]). assert (U3 : u * u * u <= / 16777216 * (u * u)) by (rewrite (Rmult_comm (/ 16777216)); apply Rmult_le_compat_l; lra).
  assert (SN : Rabs (v3x (RV3 n)) * Rabs (v3x (RV3 m)) + Rabs (v3y (RV3 n)) * Rabs (v3y (RV3 m)) + Rabs (v3z (RV3 n)) * Rabs (v3z (RV3 m)) <= 1002 / 1000) by lra. assert (u * (Rabs (v3x (RV3 n)) * Rabs (v3x (RV3 m)) + Rabs (v3y (RV3 n)) * Rabs (v3y (RV3 m)) + Rabs (v3z (RV3 n)) * Rabs (v3z (RV3 m))) <= u * (1002 / 1000)) by (apply Rmult_le_compat_l; lra). assert (u * (Rabs (vcoord3 x D3X / L) * Rabs (vcoord3 y D3X / M) + Rabs (vcoord3 x D3Y / L) * Rabs (vcoord3 y D3Y / M) + Rabs (vcoord3 x D3Z / L) * Rabs (vcoord3 y D3Z / M)) <= u * 1) by (apply Rmult_le_compat_l; [lra | exact SUM]). cbn [vcoord3] in *.
  apply Rabs_le_inv in E, Px1, Py1, Pz1. apply Rabs_le. lra.
Qed.
Lemma C101_not_idempotent_pf : let v := mkVector2 (d64 1 0) (d64 1 0) : Vector2 (num A64) in let n := v2_normalize v in
  Lt (v2x n) (v2x (v2_normalize n)) /\ Lt (v2x n) (v2x (v2_normalize (v2_mul v (d64 3 0)))).
Proof.
  cbv zeta. split; vm_compute; reflexivity.
Qed.
