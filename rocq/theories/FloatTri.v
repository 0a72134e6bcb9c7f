(** Proofs: Cauchy-Schwarz and the triangle inequality for the computed lengths (C77). *)
From Coq Require Import Bool NArith ZArith Reals List Lra Lia.
From Flocq Require Import Core.Zaux Core.Raux Core.Defs Core.Generic_fmt Core.Float_prop Core.FLT IEEE754.BinarySingleNaN.
From Verif Require Import Scalar Types Vector2 Vector3 Point2 Point3 Ray BoundingBox2 BoundingBox3 Transform2 Transform3 Float
  XReal OrdLaws Arith SpecOrder SpecStruct SpecFloat SpecReal SpecErr FloatX XArith FloatLaws FloatTrans ExactBase ErrBase FloatErr ExVals.
Local Open Scope R_scope.
Lemma rel_lo (u k l L : R) : 0 <= u <= / 16777216 -> 0 <= L -> Rabs (l - L) <= k * u * L -> (1 - k * u) * L <= l <= (1 + k * u) * L.
Proof. intros U P E. apply Rabs_le_inv in E. lra. Qed.
Lemma tri_real (u a b c A' B' C' : R) (k : R) : 0 <= u <= / 16777216 -> 0 <= k <= 7 -> 0 <= A' -> 0 <= B' -> 0 <= C' ->
  C' <= A' + B' -> Rabs (a - A') <= k * u * A' -> Rabs (b - B') <= k * u * B' -> Rabs (c - C') <= k * u * C' -> c <= (1 + 15 * u) * (a + b).
Proof.
  intros U K PA PB PC H EA EB EC. apply rel_lo in EA; [|assumption..]. apply rel_lo in EB; [|assumption..]. apply rel_lo in EC; [|assumption..].
  assert (0 <= k * u <= 7 * u) by (split; [apply Rmult_le_pos; lra | apply Rmult_le_compat_r; lra]).
  apply Rle_trans with ((1 + 7 * u) * (A' + B')). { apply Rle_trans with ((1 + k * u) * C'); [lra|]. apply Rmult_le_compat; lra. }
  apply Rle_trans with ((1 + 15 * u) * ((1 - 7 * u) * (A' + B'))); [|apply Rmult_le_compat_l; [lra|]; apply Rle_trans with ((1 - k * u) * (A' + B')); [apply Rmult_le_compat_r; lra | lra]].
  rewrite <- Rmult_assoc. apply Rmult_le_compat_r; [lra|]. assert (u * u <= / 16777216 * u) by (apply Rmult_le_compat_r; lra). lra.
Qed.
Lemma tri_real12 (u a b c s A' B' S' : R) : 0 <= u <= / 16777216 -> 0 <= A' -> 0 <= B' -> 0 <= S' -> S' <= A' + B' -> Rabs (s - S') <= u * (A' + B') -> 0 <= s ->
  Rabs (a - A') <= 5 * u * A' -> Rabs (b - B') <= 5 * u * B' -> Rabs (c - s) <= 5 * u * s -> c <= (1 + 12 * u) * (a + b).
Proof.
  intros U PA PB PS H ES P EA EB EC. apply Rabs_le_inv in ES, EA, EB, EC. assert (s <= (1 + u) * (A' + B')) by lra. assert (c <= (1 + 5 * u) * s) by lra.
  apply Rle_trans with ((1 + 5 * u) * ((1 + u) * (A' + B'))). { eapply Rle_trans; [eassumption|]. apply Rmult_le_compat_l; lra. }
  apply Rle_trans with ((1 + 12 * u) * ((1 - 5 * u) * (A' + B'))); [|apply Rmult_le_compat_l; lra].
  rewrite <- !Rmult_assoc. apply Rmult_le_compat_r; [lra|]. assert (0 <= u * u <= / 16777216 * u) by (split; [apply Rmult_le_pos; lra | apply Rmult_le_compat_r; lra]). lra.
Qed.
Lemma pow3_small u : 0 <= u <= / 16777216 -> (1 + u) ^ 3 - 1 <= 31 / 10 * u.
Proof. intros U. assert (0 <= u * u <= / 16777216 * u) by (split; [apply Rmult_le_pos; lra | apply Rmult_le_compat_r; lra]). assert (u * u * u <= / 16777216 * (u * u)) by (rewrite (Rmult_comm (/ 16777216)); apply Rmult_le_compat_l; lra). lra. Qed.
(* a small squared length bound, on both sides, bounds the smallest subnormal by the product of the lengths *)
Lemma t_le_prod (u t x y X Y : R) : 0 <= u <= / 16777216 -> 0 <= t -> 0 <= X -> 0 <= Y -> t <= u * x -> t <= u * y -> Rabs (x - X * X) <= 31 / 10 * u * (X * X) + 3 * t -> Rabs (y - Y * Y) <= 31 / 10 * u * (Y * Y) + 3 * t ->
  t <= 101 / 100 * u * (X * Y).
Proof.
  intros U T PX PY Hx Hy EX EY. apply Rabs_le_inv in EX, EY.
  assert (QX : 0 <= X * X) by now apply Rmult_le_pos. assert (QY : 0 <= Y * Y) by now apply Rmult_le_pos.
  assert (K : forall z Z, 0 <= Z -> t <= u * z -> z <= Z + 31 / 10 * u * Z + 3 * t -> t <= 101 / 100 * u * Z).
  { intros z Z PZ H1 H2. assert (0 <= u * Z) by (apply Rmult_le_pos; lra). assert (u * (u * Z) <= / 16777216 * (u * Z)) by (apply Rmult_le_compat_r; lra). assert (u * t <= / 16777216 * t) by (apply Rmult_le_compat_r; lra). assert (u * z <= u * (Z + 31 / 10 * u * Z + 3 * t)) by (apply Rmult_le_compat_l; lra). lra. }
  assert (TX : t <= 101 / 100 * u * (X * X)) by (apply (K x); lra). assert (TY : t <= 101 / 100 * u * (Y * Y)) by (apply (K y); lra).
  destruct (Rle_or_lt t (101 / 100 * u * (X * Y))) as [|C]; [assumption|]. exfalso.
  assert (P0 : 0 <= 101 / 100 * u * (X * Y)) by (apply Rmult_le_pos; [lra | now apply Rmult_le_pos]).
  assert (t * t <= (101 / 100 * u * (X * X)) * (101 / 100 * u * (Y * Y))) by (apply Rmult_le_compat; lra).
  assert ((101 / 100 * u * (X * Y)) * (101 / 100 * u * (X * Y)) < t * t) by (apply Rmult_le_0_lt_compat; lra). lra.
Qed.
Lemma cs_real (u t d D B a b X Y : R) : 0 <= u <= / 16777216 -> 0 <= t -> 0 <= X -> 0 <= Y -> 0 <= B -> Rabs D <= X * Y -> B <= X * Y -> Rabs (d - D) <= 31 / 10 * u * B + 3 * t -> t <= 101 / 100 * u * (X * Y) ->
  Rabs (a - X) <= 5 * u * X -> Rabs (b - Y) <= 5 * u * Y -> Rabs d <= (1 + 17 * u) * (a * b).
Proof.
  intros U T PX PY PB HD HB E TT EA EB. assert (N : 0 <= X * Y) by now apply Rmult_le_pos. apply rel_lo in EA; [|assumption..]. apply rel_lo in EB; [|assumption..].
  assert (0 <= u * (X * Y)) by (apply Rmult_le_pos; lra). assert (u * B <= u * (X * Y)) by (apply Rmult_le_compat_l; lra).
  apply Rle_trans with ((1 + 62 / 10 * u) * (X * Y)). { replace d with (D + (d - D)) by ring. eapply Rle_trans; [apply Rabs_triang|]. lra. }
  assert (0 <= u * u <= / 16777216 * u) by (split; [apply Rmult_le_pos; lra | apply Rmult_le_compat_r; lra]).
  assert (M : ((1 - 5 * u) * X) * ((1 - 5 * u) * Y) <= a * b) by (apply Rmult_le_compat; try lra; apply Rmult_le_pos; lra).
  apply Rle_trans with ((1 + 17 * u) * (((1 - 5 * u) * X) * ((1 - 5 * u) * Y))); [|apply Rmult_le_compat_l; lra].
  replace ((1 + 17 * u) * ((1 - 5 * u) * X * ((1 - 5 * u) * Y))) with (((1 + 17 * u) * ((1 - 5 * u) * (1 - 5 * u))) * (X * Y)) by ring. apply Rmult_le_compat_r; [assumption|].
  assert (0 <= u * (u * u) <= / 16777216 * (u * u)) by (split; [apply Rmult_le_pos; lra | apply Rmult_le_compat_r; lra]). lra.
Qed.
Lemma dot2_err {A : arith} (a b : Vector2 (num A)) : Finite (v2_dot a b) ->
  Rabs (real_of (v2_dot a b) - Rdot2 (RV2 a) (RV2 b)) <= 31 / 10 * unit_roundoff A * Rdot2 (absV2 (RV2 a)) (absV2 (RV2 b)) + 3 * min_subnormal A.
Proof.
  intros F. pose proof (u_pos (A:=A)) as U. pose proof (t_pos (A:=A)) as T. pose proof (pow3_small _ U) as P3. eapply Rle_trans; [exact (C54_dot_accurate_2d_pf A a b F)|].
  assert (0 <= Rdot2 (absV2 (RV2 a)) (absV2 (RV2 b))) by (unfold Rdot2, absV2; cbn [v2x v2y v3x v3y v3z]; repeat apply Rplus_le_le_0_compat; apply Rmult_le_pos; apply Rabs_pos).
  assert ((1 + unit_roundoff A) ^ 2 <= (1 + unit_roundoff A) ^ 3) by (apply Rle_pow; [lra|lia]).
  apply Rplus_le_compat; [apply Rmult_le_compat_r; lra | lra].
Qed.
Lemma absdot2 (a b : Vector2 R) : 0 <= Rdot2 (absV2 a) (absV2 b) <= Rnorm2 a * Rnorm2 b.
Proof.
  assert (P : 0 <= Rdot2 (absV2 a) (absV2 b)) by (unfold Rdot2, absV2; cbn [v2x v2y v3x v3y v3z]; repeat apply Rplus_le_le_0_compat; apply Rmult_le_pos; apply Rabs_pos).
  split; [assumption|]. pose proof (cauchy2_abs (absV2 a) (absV2 b)) as C. rewrite (Rabs_pos_eq _ P) in C.
  destruct (Rnorm2_sq a) as (_ & Qa & _ & Na). destruct (Rnorm2_sq b) as (_ & Qb & _ & Nb). destruct (Rnorm2_sq (absV2 a)) as (_ & _ & _ & Na'). destruct (Rnorm2_sq (absV2 b)) as (_ & _ & _ & Nb').
  rewrite Na', Nb', Qa, Qb, <- Na, <- Nb in C. exact C.
Qed.
Lemma len2_t {A : arith} (a b : Vector2 (num A)) : Finite (v2_dot a a) -> Finite (v2_dot b b) -> min_subnormal A <= unit_roundoff A * real_of (v2_dot a a) -> min_subnormal A <= unit_roundoff A * real_of (v2_dot b b) ->
  min_subnormal A <= 101 / 100 * unit_roundoff A * (Rnorm2 (RV2 a) * Rnorm2 (RV2 b)).
Proof.
  intros Fa Fb Ta Tb. pose proof (dot2_err a a Fa) as Ea. pose proof (dot2_err b b Fb) as Eb.
  destruct (Rnorm2_sq (RV2 a)) as (Na & Qa & _ & _). destruct (Rnorm2_sq (RV2 b)) as (Nb & Qb & _ & _). rewrite Qa, Na in Ea. rewrite Qb, Nb in Eb.
  eapply t_le_prod; [apply (u_pos (A:=A)) | apply (t_pos (A:=A)) | apply sqrt_pos | apply sqrt_pos | exact Ta | exact Tb | exact Ea | exact Eb].
Qed.
Lemma dot3_err {A : arith} (a b : Vector3 (num A)) : Finite (v3_dot a b) ->
  Rabs (real_of (v3_dot a b) - Rdot3 (RV3 a) (RV3 b)) <= 31 / 10 * unit_roundoff A * Rdot3 (absV3 (RV3 a)) (absV3 (RV3 b)) + 3 * min_subnormal A.
Proof.
  intros F. pose proof (u_pos (A:=A)) as U. pose proof (t_pos (A:=A)) as T. pose proof (pow3_small _ U) as P3. eapply Rle_trans; [exact (C54_dot_accurate_3d_pf A a b F)|].
  assert (0 <= Rdot3 (absV3 (RV3 a)) (absV3 (RV3 b))) by (unfold Rdot3, absV3; cbn [v2x v2y v3x v3y v3z]; repeat apply Rplus_le_le_0_compat; apply Rmult_le_pos; apply Rabs_pos).
  assert ((1 + unit_roundoff A) ^ 2 <= (1 + unit_roundoff A) ^ 3) by (apply Rle_pow; [lra|lia]).
  apply Rplus_le_compat; [apply Rmult_le_compat_r; lra | lra].
Qed.
Lemma absdot3 (a b : Vector3 R) : 0 <= Rdot3 (absV3 a) (absV3 b) <= Rnorm3 a * Rnorm3 b.
Proof.
  assert (P : 0 <= Rdot3 (absV3 a) (absV3 b)) by (unfold Rdot3, absV3; cbn [v2x v2y v3x v3y v3z]; repeat apply Rplus_le_le_0_compat; apply Rmult_le_pos; apply Rabs_pos).
  split; [assumption|]. pose proof (cauchy3_abs (absV3 a) (absV3 b)) as C. rewrite (Rabs_pos_eq _ P) in C.
  destruct (Rnorm3_sq a) as (_ & Qa & _ & Na). destruct (Rnorm3_sq b) as (_ & Qb & _ & Nb). destruct (Rnorm3_sq (absV3 a)) as (_ & _ & _ & Na'). destruct (Rnorm3_sq (absV3 b)) as (_ & _ & _ & Nb').
  rewrite Na', Nb', Qa, Qb, <- Na, <- Nb in C. exact C.
Qed.
Lemma len3_t {A : arith} (a b : Vector3 (num A)) : Finite (v3_dot a a) -> Finite (v3_dot b b) -> min_subnormal A <= unit_roundoff A * real_of (v3_dot a a) -> min_subnormal A <= unit_roundoff A * real_of (v3_dot b b) ->
  min_subnormal A <= 101 / 100 * unit_roundoff A * (Rnorm3 (RV3 a) * Rnorm3 (RV3 b)).
Proof.
  intros Fa Fb Ta Tb. pose proof (dot3_err a a Fa) as Ea. pose proof (dot3_err b b Fb) as Eb.
  destruct (Rnorm3_sq (RV3 a)) as (Na & Qa & _ & _). destruct (Rnorm3_sq (RV3 b)) as (Nb & Qb & _ & _). rewrite Qa, Na in Ea. rewrite Qb, Nb in Eb.
  eapply t_le_prod; [apply (u_pos (A:=A)) | apply (t_pos (A:=A)) | apply sqrt_pos | apply sqrt_pos | exact Ta | exact Tb | exact Ea | exact Eb].
Qed.
Definition vsum2 (a b : Vector2 R) := mkVector2 (v2x a + v2x b) (v2y a + v2y b).
Definition pdiff2 (p q : Point2 R) := mkVector2 (p2x p - p2x q) (p2y p - p2y q).
Definition vsum3 (a b : Vector3 R) := mkVector3 (v3x a + v3x b) (v3y a + v3y b) (v3z a + v3z b).
Definition pdiff3 (p q : Point3 R) := mkVector3 (p3x p - p3x q) (p3y p - p3y q) (p3z p - p3z q).
Lemma dist_triangle2 (p q r : Point2 R) : Rdist2 p r <= Rdist2 p q + Rdist2 q r.
Proof.
  pose proof (triangle2 (pdiff2 p q) (pdiff2 q r)) as H. unfold Rdist2. unfold Rnorm2, pdiff2 in H. cbn [v2x v2y v3x v3y v3z] in H.
  repeat match type of H with context [?x - ?y + (?y - ?z)] => replace (x - y + (y - z)) with (x - z) in H by ring end. exact H.
Qed.
Lemma dist_triangle3 (p q r : Point3 R) : Rdist3 p r <= Rdist3 p q + Rdist3 q r.
Proof.
  pose proof (triangle3 (pdiff3 p q) (pdiff3 q r)) as H. unfold Rdist3. unfold Rnorm3, pdiff3 in H. cbn [v2x v2y v3x v3y v3z] in H.
  repeat match type of H with context [?x - ?y + (?y - ?z)] => replace (x - y + (y - z)) with (x - z) in H by ring end. exact H.
Qed.
Lemma xr_small4 {A : arith} (r : R) : Rabs r <= 4 -> xr A (Fin r) = Fin (@arnd A r).
Proof.
  intros H. unfold arnd. destruct A as [f P|]; [|reflexivity]. cbn [xr]. apply Rabs_le_inv in H.
  assert (R2 : rnd f 4 = 4 /\ 4 < fmax_bound f).
  { destruct (repr_pow f 2 ltac:(lia)) as [Q B]. replace (bpow radix2 2) with 4 in * by (cbn; lra). rewrite Rabs_pos_eq in B by lra. split; [now apply rnd_repr | assumption]. }
  pose proof (rnd_mono f r 4 ltac:(lra)). pose proof (rnd_mono f (- r) 4 ltac:(lra)) as M. rewrite rnd_opp in M.
  destruct (xround_cases f r); [reflexivity | lra | lra].
Qed.
Lemma small_mul {A : arith} (x y : num A) : Finite x -> Finite y -> Rabs (real_of x) <= 101 / 100 -> Rabs (real_of y) <= 101 / 100 -> Finite (smul x y) /\ Rabs (real_of (smul x y)) <= 103 / 100.
Proof.
  intros Fx Fy Bx By. pose proof (Rabs_pos (real_of x)). pose proof (Rabs_pos (real_of y)).
  assert (P : Rabs (real_of x * real_of y) <= 1021 / 1000) by (rewrite Rabs_mult; apply Rle_trans with (101 / 100 * (101 / 100)); [apply Rmult_le_compat; lra | lra]).
  assert (F : Finite (smul x y)). { rewrite Finite_tx, tx_mul, (Finite_real _ Fx), (Finite_real _ Fy). cbn [xmul]. rewrite xr_small4 by lra. eauto. }
  split; [exact F|]. destruct (err_mul _ _ F) as (_ & _ & d & e & Hd & He & ->). pose proof (u_pos (A:=A)) as U. pose proof (t_pos (A:=A)) as T0. pose proof (t_le_uuu (A:=A)) as TU.
  assert (min_subnormal A <= / 16777216) by nra. assert (Rabs (1 + d) <= 1 + / 16777216) by (eapply Rle_trans; [apply Rabs_triang|]; rewrite Rabs_R1; lra).
  eapply Rle_trans; [apply Rabs_triang|]. rewrite (Rabs_mult (real_of x * real_of y)). pose proof (Rabs_pos (1 + d)). pose proof (Rabs_pos (real_of x * real_of y)).
  assert (Rabs (real_of x * real_of y) * Rabs (1 + d) <= 1021 / 1000 * (1 + / 16777216)) by (apply Rmult_le_compat; lra). lra.
Qed.
Lemma small_add {A : arith} (x y : num A) : Finite x -> Finite y -> Rabs (real_of x) <= 22 / 10 -> Rabs (real_of y) <= 103 / 100 -> Finite (sadd x y) /\ Rabs (real_of (sadd x y)) <= Rabs (real_of x) + Rabs (real_of y) + / 100000.
Proof.
  intros Fx Fy Bx By. assert (P : Rabs (real_of x + real_of y) <= Rabs (real_of x) + Rabs (real_of y)) by apply Rabs_triang.
  assert (F : Finite (sadd x y)). { rewrite Finite_tx, tx_add, (Finite_real _ Fx), (Finite_real _ Fy). cbn [xadd]. rewrite xr_small4 by lra. eauto. }
  split; [exact F|]. destruct (err_add _ _ F) as (_ & _ & d & Hd & ->). pose proof (u_pos (A:=A)) as U.
  rewrite Rmult_plus_distr_l, Rmult_1_r. eapply Rle_trans; [apply Rabs_triang|]. rewrite Rabs_mult. pose proof (Rabs_pos d). pose proof (Rabs_pos (real_of x + real_of y)).
  assert (Rabs (real_of x + real_of y) * Rabs d <= 4 * / 16777216) by (apply Rmult_le_compat; lra). lra.
Qed.
Lemma unit_real (u t d D B X Y : R) : 0 <= u <= / 16777216 -> 0 <= t -> t <= u * u * u -> Rabs (X - 1) <= 8 * u -> Rabs (Y - 1) <= 8 * u -> 0 <= B -> Rabs D <= X * Y -> B <= X * Y -> Rabs (d - D) <= 31 / 10 * u * B + 3 * t ->
  Rabs d <= 1 + 20 * u.
Proof.
  intros U T TU EX EY PB HD HB E. apply Rabs_le_inv in EX, EY. assert (U2 : 0 <= u * u <= / 16777216 * u) by (split; [apply Rmult_le_pos; lra | apply Rmult_le_compat_r; lra]).
  assert (U3 : 0 <= u * u * u <= / 16777216 * (u * u)) by (split; [apply Rmult_le_pos; lra | rewrite (Rmult_comm (/ 16777216)); apply Rmult_le_compat_l; lra]).
  assert (M : X * Y <= (1 + 8 * u) * (1 + 8 * u)) by (apply Rmult_le_compat; lra). assert (M2 : X * Y <= 1 + 161 / 10 * u) by lra.
  assert (u * B <= u * (1 + 161 / 10 * u)) by (apply Rmult_le_compat_l; lra).
  replace d with (D + (d - D)) by ring. eapply Rle_trans; [apply Rabs_triang|]. lra.
Qed.
Lemma C77_dot_at_most_lengths_2d_pf : forall (A : arith) (a b : Vector2 (num A)), Finite (v2_dot a b) ->
  Finite (v2_dot a a) -> Finite (v2_dot b b) -> min_subnormal A <= unit_roundoff A * real_of (v2_dot a a) -> min_subnormal A <= unit_roundoff A * real_of (v2_dot b b) ->
  Rabs (real_of (v2_dot a b)) <= (1 + 17 * unit_roundoff A) * (real_of (v2_length a) * real_of (v2_length b)).
Proof.
  intros A a b F Fa Fb Ta Tb. destruct (C55_length_accurate_2d_pf A a Fa Ta) as [_ Ea]. destruct (C55_length_accurate_2d_pf A b Fb Tb) as [_ Eb].
  destruct (absdot2 (RV2 a) (RV2 b)) as [P0 P1].
  eapply cs_real; [apply (u_pos (A:=A)) | apply (t_pos (A:=A)) | apply sqrt_pos | apply sqrt_pos | exact P0 | apply cauchy2_abs | exact P1 | exact (dot2_err a b F) | exact (len2_t a b Fa Fb Ta Tb) | exact Ea | exact Eb].
Qed.
Lemma C77_dot_at_most_lengths_3d_pf : forall (A : arith) (a b : Vector3 (num A)), Finite (v3_dot a b) ->
  Finite (v3_dot a a) -> Finite (v3_dot b b) -> min_subnormal A <= unit_roundoff A * real_of (v3_dot a a) -> min_subnormal A <= unit_roundoff A * real_of (v3_dot b b) ->
  Rabs (real_of (v3_dot a b)) <= (1 + 17 * unit_roundoff A) * (real_of (v3_length a) * real_of (v3_length b)).
Proof.
  intros A a b F Fa Fb Ta Tb. destruct (C55_length_accurate_3d_pf A a Fa Ta) as [_ Ea]. destruct (C55_length_accurate_3d_pf A b Fb Tb) as [_ Eb].
  destruct (absdot3 (RV3 a) (RV3 b)) as [P0 P1].
  eapply cs_real; [apply (u_pos (A:=A)) | apply (t_pos (A:=A)) | apply sqrt_pos | apply sqrt_pos | exact P0 | apply cauchy3_abs | exact P1 | exact (dot3_err a b F) | exact (len3_t a b Fa Fb Ta Tb) | exact Ea | exact Eb].
Qed.
Lemma C77_distance_triangle_2d_pf : forall (A : arith) (p q r : Point2 (num A)),
  (forall x y, (x = p /\ y = q) \/ (x = q /\ y = r) \/ (x = p /\ y = r) ->
     Finite (v2_dot (p2_sub y x) (p2_sub y x)) /\ min_subnormal A <= unit_roundoff A * real_of (v2_dot (p2_sub y x) (p2_sub y x))) ->
  real_of (p2_distance p r) <= (1 + 15 * unit_roundoff A) * (real_of (p2_distance p q) + real_of (p2_distance q r)).
Proof.
  intros A p q r H. destruct (H p q) as [F1 T1]; [tauto|]. destruct (H q r) as [F2 T2]; [tauto|]. destruct (H p r) as [F3 T3]; [tauto|].
  destruct (C55_distance_accurate_2d_pf A p q F1 T1) as [_ E1]. destruct (C55_distance_accurate_2d_pf A q r F2 T2) as [_ E2]. destruct (C55_distance_accurate_2d_pf A p r F3 T3) as [_ E3].
  eapply (tri_real _ _ _ _ _ _ _ 7); [apply (u_pos (A:=A)) | lra | apply sqrt_pos | apply sqrt_pos | apply sqrt_pos | | exact E1 | exact E2 | exact E3].
  apply dist_triangle2.
Qed.
Lemma C77_distance_triangle_3d_pf : forall (A : arith) (p q r : Point3 (num A)),
  (forall x y, (x = p /\ y = q) \/ (x = q /\ y = r) \/ (x = p /\ y = r) ->
     Finite (v3_dot (p3_sub y x) (p3_sub y x)) /\ min_subnormal A <= unit_roundoff A * real_of (v3_dot (p3_sub y x) (p3_sub y x))) ->
  real_of (p3_distance p r) <= (1 + 15 * unit_roundoff A) * (real_of (p3_distance p q) + real_of (p3_distance q r)).
Proof.
  intros A p q r H. destruct (H p q) as [F1 T1]; [tauto|]. destruct (H q r) as [F2 T2]; [tauto|]. destruct (H p r) as [F3 T3]; [tauto|].
  destruct (C55_distance_accurate_3d_pf A p q F1 T1) as [_ E1]. destruct (C55_distance_accurate_3d_pf A q r F2 T2) as [_ E2]. destruct (C55_distance_accurate_3d_pf A p r F3 T3) as [_ E3].
  eapply (tri_real _ _ _ _ _ _ _ 7); [apply (u_pos (A:=A)) | lra | apply sqrt_pos | apply sqrt_pos | apply sqrt_pos | | exact E1 | exact E2 | exact E3].
  apply dist_triangle3.
Qed.
Lemma C77_length_triangle_2d_pf : forall (A : arith) (a b : Vector2 (num A)),
  (forall x, x = a \/ x = b \/ x = v2_add a b -> Finite (v2_dot x x) /\ min_subnormal A <= unit_roundoff A * real_of (v2_dot x x)) ->
  real_of (v2_length (v2_add a b)) <= (1 + 12 * unit_roundoff A) * (real_of (v2_length a) + real_of (v2_length b)).
Proof.
  intros A a b H. destruct (H a) as [F1 T1]; [tauto|]. destruct (H b) as [F2 T2]; [tauto|]. destruct (H (v2_add a b)) as [F3 T3]; [tauto|].
  destruct (C55_length_accurate_2d_pf A _ F1 T1) as [_ E1]. destruct (C55_length_accurate_2d_pf A _ F2 T2) as [_ E2]. destruct (C55_length_accurate_2d_pf A _ F3 T3) as [_ E3].
  pose proof (u_pos (A:=A)) as U. pose proof (triangle2 (RV2 a) (RV2 b)) as TR.
  eapply tri_real12; [exact U | apply sqrt_pos | apply sqrt_pos | | exact TR | | | exact E1 | exact E2 | exact E3]; [apply sqrt_pos | | apply sqrt_pos].
  apply Rle_trans with (unit_roundoff A * Rnorm2 (vsum2 (RV2 a) (RV2 b))); [|apply Rmult_le_compat_l; [lra | exact TR]].
  unfold Rnorm2. apply sqrt_between; [exact U | repeat apply Rplus_le_le_0_compat; apply pow2_ge_0 |].
  pose proof (dot_finite_inv2 _ F3) as FF. cbn [v2_add v2_new vsum2 v2x v2y v3x v3y v3z RV2] in *. decompose [and] FF.
  repeat match goal with H : Finite (sadd _ _) |- _ => let d := fresh "d" in let Hd := fresh "Hd" in let V := fresh "V" in
    destruct (err_add _ _ H) as (_ & _ & d & Hd & V); pose proof (one_rel _ _ _ _ U Hd V); clear H V end.
  rewrite !Rmult_plus_distr_l. lra.
Qed.
Lemma C77_length_triangle_3d_pf : forall (A : arith) (a b : Vector3 (num A)),
  (forall x, x = a \/ x = b \/ x = v3_add a b -> Finite (v3_dot x x) /\ min_subnormal A <= unit_roundoff A * real_of (v3_dot x x)) ->
  real_of (v3_length (v3_add a b)) <= (1 + 12 * unit_roundoff A) * (real_of (v3_length a) + real_of (v3_length b)).
Proof.
  intros A a b H. destruct (H a) as [F1 T1]; [tauto|]. destruct (H b) as [F2 T2]; [tauto|]. destruct (H (v3_add a b)) as [F3 T3]; [tauto|].
  destruct (C55_length_accurate_3d_pf A _ F1 T1) as [_ E1]. destruct (C55_length_accurate_3d_pf A _ F2 T2) as [_ E2]. destruct (C55_length_accurate_3d_pf A _ F3 T3) as [_ E3].
  pose proof (u_pos (A:=A)) as U. pose proof (triangle3 (RV3 a) (RV3 b)) as TR.
  eapply tri_real12; [exact U | apply sqrt_pos | apply sqrt_pos | | exact TR | | | exact E1 | exact E2 | exact E3]; [apply sqrt_pos | | apply sqrt_pos].
  apply Rle_trans with (unit_roundoff A * Rnorm3 (vsum3 (RV3 a) (RV3 b))); [|apply Rmult_le_compat_l; [lra | exact TR]].
  unfold Rnorm3. apply sqrt_between; [exact U | repeat apply Rplus_le_le_0_compat; apply pow2_ge_0 |].
  pose proof (dot_finite_inv3 _ F3) as FF. cbn [v3_add v3_new vsum3 v2x v2y v3x v3y v3z RV3] in *. decompose [and] FF.
  repeat match goal with H : Finite (sadd _ _) |- _ => let d := fresh "d" in let Hd := fresh "Hd" in let V := fresh "V" in
    destruct (err_add _ _ H) as (_ & _ & d & Hd & V); pose proof (one_rel _ _ _ _ U Hd V); clear H V end.
  rewrite !Rmult_plus_distr_l. lra.
Qed.
Lemma C77_unit_dot_2d_pf : forall (A : arith) (a b : Vector2 (num A)),
  (forall x, x = a \/ x = b -> Finite (v2_dot x x) /\ min_subnormal A <= unit_roundoff A * real_of (v2_dot x x) /\ 0 < Rnorm2 (RV2 x)) ->
  Finite (v2_dot (v2_normalize a) (v2_normalize b)) /\ Rabs (real_of (v2_dot (v2_normalize a) (v2_normalize b))) <= 1 + 20 * unit_roundoff A.
Proof.
  intros A a b H. destruct (H a) as (F1 & T1 & P1); [tauto|]. destruct (H b) as (F2 & T2 & P2); [tauto|].
  destruct (C24_normalize_accurate_2d_pf A a F1 T1 P1) as (Fa & _ & Na). destruct (C24_normalize_accurate_2d_pf A b F2 T2 P2) as (Fb & _ & Nb).
  pose proof (u_pos (A:=A)) as U. pose proof (t_pos (A:=A)) as T0.
  assert (K : forall v : Vector2 (num A), VFinite2 v -> Rabs (Rnorm2 (RV2 v) - 1) <= 8 * unit_roundoff A -> forall d, Finite (vcoord2 v d) /\ Rabs (real_of (vcoord2 v d)) <= 101 / 100).
  { intros v Fv N d. split; [apply Fv|]. pose proof (comp_le_norm2 (RV2 v) d) as C. replace (vcoord2 (RV2 v) d) with (real_of (vcoord2 v d)) in C by (destruct d; reflexivity). apply Rabs_le_inv in N. lra. }
  pose proof (K _ Fa Na) as Ka. pose proof (K _ Fb Nb) as Kb. clear K. set (n := v2_normalize a) in *. set (m := v2_normalize b) in *. clearbody n m.
  assert (FD : Finite (v2_dot n m)).
  { destruct (small_mul _ _ (proj1 (Ka D2X)) (proj1 (Kb D2X)) (proj2 (Ka D2X)) (proj2 (Kb D2X))) as [FX BX]. destruct (small_mul _ _ (proj1 (Ka D2Y)) (proj1 (Kb D2Y)) (proj2 (Ka D2Y)) (proj2 (Kb D2Y))) as [FY BY]. exact (proj1 (small_add _ _ FX FY ltac:(lra) BY)). }
  split; [exact FD|]. destruct (absdot2 (RV2 n) (RV2 m)) as [Q0 Q1].
  eapply unit_real; [exact U | exact T0 | apply t_le_uuu | exact Na | exact Nb | exact Q0 | apply cauchy2_abs | exact Q1 | exact (dot2_err n m FD)].
Qed.
Lemma C77_unit_dot_3d_pf : forall (A : arith) (a b : Vector3 (num A)),
  (forall x, x = a \/ x = b -> Finite (v3_dot x x) /\ min_subnormal A <= unit_roundoff A * real_of (v3_dot x x) /\ 0 < Rnorm3 (RV3 x)) ->
  Finite (v3_dot (v3_normalize a) (v3_normalize b)) /\ Rabs (real_of (v3_dot (v3_normalize a) (v3_normalize b))) <= 1 + 20 * unit_roundoff A.
Proof.
  intros A a b H. destruct (H a) as (F1 & T1 & P1); [tauto|]. destruct (H b) as (F2 & T2 & P2); [tauto|].
  destruct (C24_normalize_accurate_3d_pf A a F1 T1 P1) as (Fa & _ & Na). destruct (C24_normalize_accurate_3d_pf A b F2 T2 P2) as (Fb & _ & Nb).
  pose proof (u_pos (A:=A)) as U. pose proof (t_pos (A:=A)) as T0.
  assert (K : forall v : Vector3 (num A), VFinite3 v -> Rabs (Rnorm3 (RV3 v) - 1) <= 8 * unit_roundoff A -> forall d, Finite (vcoord3 v d) /\ Rabs (real_of (vcoord3 v d)) <= 101 / 100).
  { intros v Fv N d. split; [apply Fv|]. pose proof (comp_le_norm3 (RV3 v) d) as C. replace (vcoord3 (RV3 v) d) with (real_of (vcoord3 v d)) in C by (destruct d; reflexivity). apply Rabs_le_inv in N. lra. }
  pose proof (K _ Fa Na) as Ka. pose proof (K _ Fb Nb) as Kb. clear K. set (n := v3_normalize a) in *. set (m := v3_normalize b) in *. clearbody n m.
  assert (FD : Finite (v3_dot n m)).
  { destruct (small_mul _ _ (proj1 (Ka D3X)) (proj1 (Kb D3X)) (proj2 (Ka D3X)) (proj2 (Kb D3X))) as [FX BX]. destruct (small_mul _ _ (proj1 (Ka D3Y)) (proj1 (Kb D3Y)) (proj2 (Ka D3Y)) (proj2 (Kb D3Y))) as [FY BY]. destruct (small_mul _ _ (proj1 (Ka D3Z)) (proj1 (Kb D3Z)) (proj2 (Ka D3Z)) (proj2 (Kb D3Z))) as [FZ BZ]. destruct (small_add _ _ FX FY ltac:(lra) BY) as [FS BS]. exact (proj1 (small_add _ _ FS FZ ltac:(lra) BZ)). }
  split; [exact FD|]. destruct (absdot3 (RV3 n) (RV3 m)) as [Q0 Q1].
  eapply unit_real; [exact U | exact T0 | apply t_le_uuu | exact Na | exact Nb | exact Q0 | apply cauchy3_abs | exact Q1 | exact (dot3_err n m FD)].
Qed.
Lemma C77_exact_laws_refuted_pf : let v := mkVector3 (d64 1 0) (d64 1 0) (d64 1 0) : Vector3 (num A64) in let w := mkVector2 (d64 1 0) (d64 5 0) : Vector2 (num A64) in
  let p k := mkPoint2 (d64 k 0) (d64 k 0) : Point2 (num A64) in
  Lt sone (v3_dot (v3_normalize v) (v3_normalize v)) /\ Lt sone (v2_dot (v2_normalize w) (v2_normalize w)) /\
  Lt (smul (v3_length v) (v3_length v)) (v3_dot v v) /\ Lt (smul (v2_length w) (v2_length w)) (v2_dot w w) /\
  Lt (sadd (p2_distance (p 0%Z) (p 1%Z)) (p2_distance (p 1%Z) (p 4%Z))) (p2_distance (p 0%Z) (p 4%Z)).
Proof.
  cbv zeta. repeat apply conj; vm_compute; reflexivity.
Qed.
