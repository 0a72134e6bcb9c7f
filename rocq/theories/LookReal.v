(** Proof device for C80: real inequalities about a nearly orthonormal frame. *)
From Coq Require Import Reals Lra Lia.
From Flocq Require Import Core.Raux.
Local Open Scope R_scope.
Lemma sq_abs x M : 0 <= M -> x * x <= M * M -> Rabs x <= M.
Proof. intros HM H. apply Rabs_le. split; nra. Qed.
Lemma cs3 x1 x2 x3 y1 y2 y3 X Y : 0 <= X -> 0 <= Y -> x1 * x1 + x2 * x2 + x3 * x3 <= X * X -> y1 * y1 + y2 * y2 + y3 * y3 <= Y * Y -> Rabs (x1 * y1 + x2 * y2 + x3 * y3) <= X * Y.
Proof.
  intros HX HY H1 H2. apply sq_abs; [now apply Rmult_le_pos|].
  assert (L : (x1 * y1 + x2 * y2 + x3 * y3) * (x1 * y1 + x2 * y2 + x3 * y3) <= (x1 * x1 + x2 * x2 + x3 * x3) * (y1 * y1 + y2 * y2 + y3 * y3)).
  { pose proof (Rle_0_sqr (x1 * y2 - x2 * y1)). pose proof (Rle_0_sqr (x1 * y3 - x3 * y1)). pose proof (Rle_0_sqr (x2 * y3 - x3 * y2)). unfold Rsqr in *. lra. }
  eapply Rle_trans; [exact L|]. replace (X * Y * (X * Y)) with ((X * X) * (Y * Y)) by ring. apply Rmult_le_compat; try assumption.
  - pose proof (Rle_0_sqr x1). pose proof (Rle_0_sqr x2). pose proof (Rle_0_sqr x3). unfold Rsqr in *. lra.
  - pose proof (Rle_0_sqr y1). pose proof (Rle_0_sqr y2). pose proof (Rle_0_sqr y3). unfold Rsqr in *. lra.
Qed.
Lemma cs2 x1 x2 y1 y2 X Y : 0 <= X -> 0 <= Y -> x1 * x1 + x2 * x2 <= X * X -> y1 * y1 + y2 * y2 <= Y * Y -> Rabs x1 * Rabs y2 + Rabs x2 * Rabs y1 <= X * Y.
Proof.
  intros HX HY H1 H2. assert (A : forall z, Rabs z * Rabs z = z * z) by (intros z; rewrite <- Rabs_mult; apply Rabs_pos_eq, Rle_0_sqr).
  eapply Rle_trans; [|apply (cs3 (Rabs x1) (Rabs x2) 0 (Rabs y2) (Rabs y1) 0 X Y HX HY)]; rewrite ?A; try lra. eapply Rle_trans; [|apply Rle_abs]. lra.
Qed.
Lemma sum_abs x1 x2 x3 X : 0 <= X -> x1 * x1 + x2 * x2 + x3 * x3 <= X * X -> Rabs x1 + Rabs x2 + Rabs x3 <= 7 / 4 * X.
Proof.
  intros HX H. assert (A : forall z, Rabs z * Rabs z = z * z) by (intros z; rewrite <- Rabs_mult; apply Rabs_pos_eq, Rle_0_sqr).
  eapply Rle_trans; [|rewrite Rmult_comm; apply (cs3 (Rabs x1) (Rabs x2) (Rabs x3) 1 1 1 X (7 / 4) HX)]; rewrite ?A; try lra. eapply Rle_trans; [|apply Rle_abs]. lra.
Qed.
Lemma sum_err e1 e2 e3 y1 y2 y3 E : Rabs e1 <= E -> Rabs e2 <= E -> Rabs e3 <= E -> Rabs (e1 * y1 + e2 * y2 + e3 * y3) <= E * (Rabs y1 + Rabs y2 + Rabs y3).
Proof.
  intros H1 H2 H3. eapply Rle_trans; [apply Rabs_triang|]. eapply Rle_trans; [apply Rplus_le_compat_r, Rabs_triang|]. rewrite !Rabs_mult.
  assert (forall e y, Rabs e <= E -> Rabs e * Rabs y <= E * Rabs y) as K by (intros; apply Rmult_le_compat_r; [apply Rabs_pos | assumption]).
  pose proof (K _ y1 H1). pose proof (K _ y2 H2). pose proof (K _ y3 H3). lra.
Qed.
Lemma lagrange d1 d2 d3 r1 r2 r3 :
  (d2 * r3 - d3 * r2) * (d2 * r3 - d3 * r2) + (d3 * r1 - d1 * r3) * (d3 * r1 - d1 * r3) + (d1 * r2 - d2 * r1) * (d1 * r2 - d2 * r1) =
  (d1 * d1 + d2 * d2 + d3 * d3) * (r1 * r1 + r2 * r2 + r3 * r3) - (d1 * r1 + d2 * r2 + d3 * r3) * (d1 * r1 + d2 * r2 + d3 * r3).
Proof. ring. Qed.
(* the frame of look_at: r = right, d = direction, n = new_up = d x r + e *)
Definition FrameOk (u k r1 r2 r3 n1 n2 n3 d1 d2 d3 : R) : Prop :=
  Rabs (r1 * r1 + r2 * r2 + r3 * r3 - 1) <= 17 * u /\ Rabs (d1 * d1 + d2 * d2 + d3 * d3 - 1) <= 17 * u /\ Rabs (d1 * r1 + d2 * r2 + d3 * r3) <= k /\
  Rabs (n1 - (d2 * r3 - d3 * r2)) <= 17 / 8 * u /\ Rabs (n2 - (d3 * r1 - d1 * r3)) <= 17 / 8 * u /\ Rabs (n3 - (d1 * r2 - d2 * r1)) <= 17 / 8 * u.
Section F.
Context (u k r1 r2 r3 n1 n2 n3 d1 d2 d3 : R).
Context (U : 0 <= u <= / 16777216).
Context (K : k <= 17 / 1024).
Context (H : FrameOk u k r1 r2 r3 n1 n2 n3 d1 d2 d3).
Let R1 := 100001 / 100000.
Lemma fr_sq : r1 * r1 + r2 * r2 + r3 * r3 <= R1 * R1 * 1 /\ d1 * d1 + d2 * d2 + d3 * d3 <= R1 * R1.
Proof using U H. clear K. unfold R1. destruct H as (A & B & _). apply Rabs_le_inv in A, B. split; lra. Qed.
Let x1 := d2 * r3 - d3 * r2. Let x2 := d3 * r1 - d1 * r3. Let x3 := d1 * r2 - d2 * r1.
Lemma fr_x : Rabs (x1 * x1 + x2 * x2 + x3 * x3 - 1) <= 35 * u + k * k.
Proof using U H. clear K.
  unfold x1, x2, x3. rewrite lagrange. destruct H as (A & B & C & _). apply Rabs_le_inv in A, B. set (a := d1 * d1 + d2 * d2 + d3 * d3) in *. set (b := r1 * r1 + r2 * r2 + r3 * r3) in *. set (c := d1 * r1 + d2 * r2 + d3 * r3) in *.
  assert (0 <= c * c <= k * k). { split; [apply Rle_0_sqr|]. apply Rabs_le_inv in C. nra. }
  apply Rabs_le. split; nra.
Qed.
Lemma fr_n : Rabs (n1 * d1 + n2 * d2 + n3 * d3) <= 5 * u /\ Rabs (n1 * r1 + n2 * r2 + n3 * r3) <= 5 * u /\ Rabs (n1 * n1 + n2 * n2 + n3 * n3 - 1) <= 44 * u + k * k.
Proof using U H.
  destruct fr_sq as [A B]. pose proof fr_x as X. destruct H as (A' & B' & C & E1 & E2 & E3). fold x1 in E1. fold x2 in E2. fold x3 in E3.
  pose proof (sum_abs d1 d2 d3 R1 ltac:(unfold R1; lra) B) as SD. pose proof (sum_abs r1 r2 r3 R1 ltac:(unfold R1; lra) ltac:(lra)) as SR.
  assert (SX : Rabs x1 + Rabs x2 + Rabs x3 <= 7 / 4 * R1).
  { apply sum_abs; [unfold R1; lra|]. unfold x1, x2, x3. rewrite lagrange. pose proof (Rle_0_sqr (d1 * r1 + d2 * r2 + d3 * r3)) as P. unfold Rsqr in P.
    assert ((d1 * d1 + d2 * d2 + d3 * d3) * (r1 * r1 + r2 * r2 + r3 * r3) <= R1 * R1); [|lra]. clear - U A' B'. apply Rabs_le_inv in A', B'. unfold R1. nra. }
  pose proof (sum_err _ _ _ d1 d2 d3 _ E1 E2 E3) as ED. pose proof (sum_err _ _ _ r1 r2 r3 _ E1 E2 E3) as ER. pose proof (sum_err _ _ _ x1 x2 x3 _ E1 E2 E3) as EX.
  replace (n1 * d1 + n2 * d2 + n3 * d3) with ((n1 - x1) * d1 + (n2 - x2) * d2 + (n3 - x3) * d3) by (unfold x1, x2, x3; ring).
  replace (n1 * r1 + n2 * r2 + n3 * r3) with ((n1 - x1) * r1 + (n2 - x2) * r2 + (n3 - x3) * r3) by (unfold x1, x2, x3; ring).
  assert (Q : forall S, S <= 7 / 4 * R1 -> 17 / 8 * u * S <= 4 * u). { intros S L. assert (17 / 8 * u * S <= 17 / 8 * u * (7 / 4 * R1)) by (apply Rmult_le_compat_l; lra). unfold R1 in *. lra. }
  pose proof (Q _ SD). pose proof (Q _ SR). pose proof (Q _ SX). split; [lra|]. split; [lra|].
  replace (n1 * n1 + n2 * n2 + n3 * n3 - 1) with ((x1 * x1 + x2 * x2 + x3 * x3 - 1) + 2 * ((n1 - x1) * x1 + (n2 - x2) * x2 + (n3 - x3) * x3) + ((n1 - x1) * (n1 - x1) + (n2 - x2) * (n2 - x2) + (n3 - x3) * (n3 - x3))) by ring.
  assert (S : forall e, Rabs e <= 17 / 8 * u -> 0 <= e * e <= / 10 * u). { intros e L. split; [apply Rle_0_sqr|]. apply Rabs_le_inv in L. assert (e * e <= 17 / 8 * u * (17 / 8 * u)) by nra. nra. }
  pose proof (S _ E1). pose proof (S _ E2). pose proof (S _ E3). apply Rabs_le_inv in X, EX. apply Rabs_le. split; lra.
Qed.
Lemma fr_det : let D := r1 * (n2 * d3 - n3 * d2) - n1 * (r2 * d3 - r3 * d2) + d1 * (r2 * n3 - r3 * n2) in 99 / 100 <= D <= 10001 / 10000.
Proof using U H K.
  pose proof fr_x as X. destruct fr_sq as [A B]. destruct H as (A' & B' & C & E1 & E2 & E3). fold x1 in E1. fold x2 in E2. fold x3 in E3. intros D.
  assert (SX : Rabs x1 + Rabs x2 + Rabs x3 <= 7 / 4 * R1).
  { apply sum_abs; [unfold R1; lra|]. unfold x1, x2, x3. rewrite lagrange. pose proof (Rle_0_sqr (d1 * r1 + d2 * r2 + d3 * r3)) as P. unfold Rsqr in P.
    assert ((d1 * d1 + d2 * d2 + d3 * d3) * (r1 * r1 + r2 * r2 + r3 * r3) <= R1 * R1); [|lra]. clear - U A' B'. apply Rabs_le_inv in A', B'. unfold R1. nra. }
  pose proof (sum_err _ _ _ x1 x2 x3 _ E1 E2 E3) as EX.
  assert (Q : 17 / 8 * u * (Rabs x1 + Rabs x2 + Rabs x3) <= 4 * u). { assert (17 / 8 * u * (Rabs x1 + Rabs x2 + Rabs x3) <= 17 / 8 * u * (7 / 4 * R1)) by (apply Rmult_le_compat_l; lra). unfold R1 in *. lra. }
  replace D with (1 + (x1 * x1 + x2 * x2 + x3 * x3 - 1) + ((n1 - x1) * x1 + (n2 - x2) * x2 + (n3 - x3) * x3)) by (unfold D, x1, x2, x3; ring).
  assert (0 <= k * k <= / 3600) by (pose proof (Rle_0_sqr k); unfold Rsqr in *; assert (0 <= k) by (pose proof (Rabs_pos (d1 * r1 + d2 * r2 + d3 * r3)); lra); split; [assumption | nra]).
  apply Rabs_le_inv in X, EX. split; [lra|].
  assert (x1 * x1 + x2 * x2 + x3 * x3 <= R1 * R1).
  { unfold x1, x2, x3. rewrite lagrange. pose proof (Rle_0_sqr (d1 * r1 + d2 * r2 + d3 * r3)) as P. unfold Rsqr in P. clear - U A' B' P. apply Rabs_le_inv in A', B'. unfold R1. nra. }
  unfold R1 in *. lra.
Qed.
Let R2 := 1001 / 1000.
Lemma fr_ent : (Rabs r1 <= R2 /\ Rabs r2 <= R2 /\ Rabs r3 <= R2) /\ (Rabs n1 <= R2 /\ Rabs n2 <= R2 /\ Rabs n3 <= R2) /\ (Rabs d1 <= R2 /\ Rabs d2 <= R2 /\ Rabs d3 <= R2).
Proof using U H K.
  destruct fr_sq as [A B]. destruct fr_n as (_ & _ & N). apply Rabs_le_inv in N.
  assert (0 <= k * k <= / 3600) by (destruct H as (_ & _ & C & _); pose proof (Rle_0_sqr k); unfold Rsqr in *; assert (0 <= k) by (pose proof (Rabs_pos (d1 * r1 + d2 * r2 + d3 * r3)); lra); split; [assumption | nra]).
  pose proof (Rle_0_sqr r1). pose proof (Rle_0_sqr r2). pose proof (Rle_0_sqr r3). pose proof (Rle_0_sqr n1). pose proof (Rle_0_sqr n2). pose proof (Rle_0_sqr n3). pose proof (Rle_0_sqr d1). pose proof (Rle_0_sqr d2). pose proof (Rle_0_sqr d3).
  unfold Rsqr, R1, R2 in *. repeat split; apply sq_abs; lra.
Qed.
Lemma fr_cof2 a1 a2 a3 b1 b2 b3 : a1 * a1 + a2 * a2 + a3 * a3 <= R2 -> b1 * b1 + b2 * b2 + b3 * b3 <= R2 -> Rabs (a2 * b3 - a3 * b2) <= R2.
Proof using. clear.
  intros A B. apply sq_abs; [unfold R2; lra|]. pose proof (Rle_0_sqr a1). pose proof (Rle_0_sqr b1). unfold Rsqr in *.
  assert (L : (a2 * b3 - a3 * b2) * (a2 * b3 - a3 * b2) <= (a2 * a2 + a3 * a3) * (b2 * b2 + b3 * b3)) by (pose proof (Rle_0_sqr (a2 * b2 + a3 * b3)); unfold Rsqr in *; lra).
  eapply Rle_trans; [exact L|]. pose proof (Rle_0_sqr a2). pose proof (Rle_0_sqr a3). pose proof (Rle_0_sqr b2). pose proof (Rle_0_sqr b3). unfold Rsqr in *. apply Rmult_le_compat; lra.
Qed.
Lemma fr_sq3 : r1 * r1 + r2 * r2 + r3 * r3 <= R2 /\ n1 * n1 + n2 * n2 + n3 * n3 <= R2 /\ d1 * d1 + d2 * d2 + d3 * d3 <= R2.
Proof using U H K.
  destruct fr_sq as [A B]. destruct fr_n as (_ & _ & N). apply Rabs_le_inv in N.
  assert (0 <= k * k <= / 3600) by (destruct H as (_ & _ & C & _); pose proof (Rle_0_sqr k); unfold Rsqr in *; assert (0 <= k) by (pose proof (Rabs_pos (d1 * r1 + d2 * r2 + d3 * r3)); lra); split; [assumption | nra]).
  unfold R1, R2 in *. lra.
Qed.
End F.
(* lengths in the frame, and the components of up *)
Section F2.
Context (u k r1 r2 r3 n1 n2 n3 d1 d2 d3 : R).
Context (U : 0 <= u <= / 16777216).
Context (K : k <= 17 / 1024).
Context (H : FrameOk u k r1 r2 r3 n1 n2 n3 d1 d2 d3).
Lemma fr_k : 0 <= k.
Proof using H. destruct H as (_ & _ & C & _). pose proof (Rabs_pos (d1 * r1 + d2 * r2 + d3 * r3)). lra. Qed.
Lemma fr_iso x y z : let v1 := r1 * x + n1 * y + d1 * z in let v2 := r2 * x + n2 * y + d2 * z in let v3 := r3 * x + n3 * y + d3 * z in
  Rabs (v1 * v1 + v2 * v2 + v3 * v3 - (x * x + y * y + z * z)) <= (54 * u + k) * (x * x + y * y + z * z).
Proof using U K H.
  cbv zeta. pose proof fr_k as K0. destruct (fr_n u k r1 r2 r3 n1 n2 n3 d1 d2 d3 U H) as (ND & NR & NN). destruct H as (RR & DD & DR & _).
  set (a := r1 * r1 + r2 * r2 + r3 * r3) in *. set (b := d1 * d1 + d2 * d2 + d3 * d3) in *. set (c := d1 * r1 + d2 * r2 + d3 * r3) in *. set (e := n1 * d1 + n2 * d2 + n3 * d3) in *. set (f := n1 * r1 + n2 * r2 + n3 * r3) in *. set (g := n1 * n1 + n2 * n2 + n3 * n3) in *.
  match goal with |- Rabs ?E <= _ => replace E with (x * x * (a - 1) + y * y * (g - 1) + z * z * (b - 1) + (2 * (x * y)) * f + (2 * (x * z)) * c + (2 * (y * z)) * e) by (unfold a, b, c, e, f, g; ring) end.
  clearbody a b c e f g. pose proof (Rle_0_sqr x) as X. pose proof (Rle_0_sqr y) as Y. pose proof (Rle_0_sqr z) as Z. unfold Rsqr in *.
  assert (P : forall q h E, 0 <= q -> Rabs h <= E -> Rabs (q * h) <= q * E) by (intros q h E Q B; rewrite Rabs_mult, (Rabs_pos_eq q) by assumption; now apply Rmult_le_compat_l).
  assert (P2 : forall p q h E, Rabs h <= E -> Rabs (2 * (p * q) * h) <= (p * p + q * q) * E).
  { intros p q h E B. rewrite Rabs_mult. apply Rmult_le_compat; try apply Rabs_pos; [|assumption]. apply Rabs_le. split; [pose proof (Rle_0_sqr (p + q)) | pose proof (Rle_0_sqr (p - q))]; unfold Rsqr in *; lra. }
  pose proof (P _ _ _ X RR). pose proof (P _ _ _ Y NN). pose proof (P _ _ _ Z DD). pose proof (P2 x y _ _ NR). pose proof (P2 x z _ _ DR). pose proof (P2 y z _ _ ND).
  assert (KK : 0 <= k * k <= k) by (split; nra).
  assert (y * y * (k * k) <= y * y * k) by (apply Rmult_le_compat_l; lra). assert (0 <= x * x * u) by (apply Rmult_le_pos; lra). assert (0 <= y * y * u) by (apply Rmult_le_pos; lra). assert (0 <= z * z * u) by (apply Rmult_le_pos; lra).
  assert (0 <= x * x * k) by (apply Rmult_le_pos; lra). assert (0 <= y * y * k) by (apply Rmult_le_pos; lra). assert (0 <= z * z * k) by (apply Rmult_le_pos; lra).
  repeat match goal with B : Rabs _ <= _ |- _ => apply Rabs_le_inv in B end. clear RR DD DR ND NR NN P P2. apply Rabs_le. split; lra.
Qed.
Lemma fr_up a1 a2 a3 : Rabs (a1 * a1 + a2 * a2 + a3 * a3 - 1) <= 17 * u -> Rabs (a1 * r1 + a2 * r2 + a3 * r3) <= k ->
  Rabs ((n2 * d3 - n3 * d2) * a1 + (n3 * d1 - n1 * d3) * a2 + (n1 * d2 - n2 * d1) * a3) <= 2002 / 1000 * k + 4 * u.
Proof using U K H.
  intros NA PA. pose proof fr_k as K0. destruct (fr_sq u k r1 r2 r3 n1 n2 n3 d1 d2 d3 U H) as [SR SD]. destruct H as (RR & DD & DR & E1 & E2 & E3).
  assert (SA : a1 * a1 + a2 * a2 + a3 * a3 <= 100001 / 100000 * (100001 / 100000)) by (apply Rabs_le_inv in NA; lra).
  pose proof (cs3 a1 a2 a3 d1 d2 d3 (100001 / 100000) (100001 / 100000) ltac:(lra) ltac:(lra) SA SD) as AD.
  assert (SX : Rabs (d2 * a3 - d3 * a2) + Rabs (d3 * a1 - d1 * a3) + Rabs (d1 * a2 - d2 * a1) <= 7 / 4 * (10001 / 10000)).
  { apply sum_abs; [lra|]. rewrite lagrange. pose proof (Rle_0_sqr (d1 * a1 + d2 * a2 + d3 * a3)) as P. unfold Rsqr in P.
    assert ((d1 * d1 + d2 * d2 + d3 * d3) * (a1 * a1 + a2 * a2 + a3 * a3) <= 100001 / 100000 * (100001 / 100000) * (100001 / 100000 * (100001 / 100000))); [|lra].
    apply Rabs_le_inv in NA, DD. apply Rmult_le_compat; lra. }
  pose proof (sum_err _ _ _ (d2 * a3 - d3 * a2) (d3 * a1 - d1 * a3) (d1 * a2 - d2 * a1) _ E1 E2 E3) as EX.
  assert (EX' : 17 / 8 * u * (Rabs (d2 * a3 - d3 * a2) + Rabs (d3 * a1 - d1 * a3) + Rabs (d1 * a2 - d2 * a1)) <= 17 / 8 * u * (7 / 4 * (10001 / 10000))) by (apply Rmult_le_compat_l; lra).
  match goal with |- Rabs ?e <= _ => replace e with ((a1 * r1 + a2 * r2 + a3 * r3) * (d1 * d1 + d2 * d2 + d3 * d3) - (a1 * d1 + a2 * d2 + a3 * d3) * (d1 * r1 + d2 * r2 + d3 * r3) +
    ((n1 - (d2 * r3 - d3 * r2)) * (d2 * a3 - d3 * a2) + (n2 - (d3 * r1 - d1 * r3)) * (d3 * a1 - d1 * a3) + (n3 - (d1 * r2 - d2 * r1)) * (d1 * a2 - d2 * a1))) by ring end.
  eapply Rle_trans; [apply Rabs_triang|]. apply Rle_trans with (Rabs ((a1 * r1 + a2 * r2 + a3 * r3) * (d1 * d1 + d2 * d2 + d3 * d3)) + Rabs ((a1 * d1 + a2 * d2 + a3 * d3) * (d1 * r1 + d2 * r2 + d3 * r3)) + 4 * u).
  { apply Rplus_le_compat; [|lra]. unfold Rminus at 1. eapply Rle_trans; [apply Rabs_triang|]. rewrite Rabs_Ropp. apply Rle_refl. }
  assert (Rabs ((a1 * r1 + a2 * r2 + a3 * r3) * (d1 * d1 + d2 * d2 + d3 * d3)) <= k * (1001 / 1000)).
  { rewrite Rabs_mult. apply Rmult_le_compat; try apply Rabs_pos; [assumption|]. apply Rabs_le_inv in DD. apply Rabs_le. lra. }
  assert (Rabs ((a1 * d1 + a2 * d2 + a3 * d3) * (d1 * r1 + d2 * r2 + d3 * r3)) <= 1001 / 1000 * k) by (rewrite Rabs_mult; apply Rmult_le_compat; try apply Rabs_pos; lra). lra.
Qed.
End F2.
(* lengths whose squares are close *)
Lemma len_close a b h : 0 <= a -> 0 <= b -> 0 <= h <= 7 / 100 -> Rabs (a * a - b * b) <= h * (b * b) -> Rabs (a - b) <= 104 / 100 * h * a.
Proof.
  intros A B Hh D. destruct (Rle_lt_or_eq_dec 0 b B) as [B0|<-].
  2:{ rewrite Rmult_0_l, Rmult_0_r, Rminus_0_r in D. assert (a = 0). { rewrite Rabs_pos_eq in D by (apply Rle_0_sqr). nra. } subst a. rewrite Rminus_0_r, Rabs_R0. lra. }
  assert (BA : b <= 104 / 100 * a). { apply Rabs_le_inv in D. assert (93 / 100 * (b * b) <= a * a) by nra. apply Rnot_lt_le. intros L. assert (a * (104 / 100) < b) by lra. nra. }
  assert (AB : Rabs (a - b) * (a + b) <= h * b * b). { rewrite <- (Rabs_pos_eq (a + b)) by lra. rewrite <- Rabs_mult. replace ((a - b) * (a + b)) with (a * a - b * b) by ring. lra. }
  assert (Rabs (a - b) * b <= h * b * b). { eapply Rle_trans; [|exact AB]. apply Rmult_le_compat_l; [apply Rabs_pos | lra]. }
  assert (Rabs (a - b) <= h * b) by (apply Rmult_le_reg_r with b; assumption). assert (h * b <= h * (104 / 100 * a)) by (apply Rmult_le_compat_l; lra). lra.
Qed.
(* the reverse triangle inequality, from squares *)
Lemma rev_tri x1 x2 x3 y1 y2 y3 X Y E : 0 <= X -> 0 <= Y -> 0 <= E -> x1 * x1 + x2 * x2 + x3 * x3 = X * X -> y1 * y1 + y2 * y2 + y3 * y3 = Y * Y ->
  (x1 - y1) * (x1 - y1) + (x2 - y2) * (x2 - y2) + (x3 - y3) * (x3 - y3) <= E * E -> Rabs (X - Y) <= E.
Proof.
  intros HX HY HE QX QY Q. apply sq_abs; [assumption|]. pose proof (cs3 x1 x2 x3 y1 y2 y3 X Y HX HY ltac:(lra) ltac:(lra)) as C. apply Rabs_le_inv in C. nra.
Qed.
