(** Proofs: searching a tree of balls (C117). *)
From Coq Require Import Bool NArith ZArith Reals List Lra Lia.
From Flocq Require Import Core.Zaux Core.Raux Core.Defs.
From Verif Require Import Scalar Types Vector2 Vector3 Point2 Point3 Float
  XReal OrdLaws Arith SpecOrder SpecFloat SpecReal SpecErr SpecBtree OrderProofs FloatX XArith FloatLaws ErrBase FloatErr FloatTrans ExVals FloatTri.
Import ListNotations.
Local Open Scope R_scope.
Section A.
Context {A : arith}.
Notation u := (unit_roundoff A).
Let L := num_OrdLaws A.
(* a centre too far away means that no point of the ball is within the range *)
Lemma skip_ok (s R r D d1 d2 : num A) : Finite s -> 1 + 20 * u <= real_of s -> Le d1 R -> Le d2 r -> Finite d1 -> Finite d2 -> Finite D ->
  0 <= real_of d1 -> 0 <= real_of d2 -> real_of D <= (1 + 15 * u) * (real_of d1 + real_of d2) -> slt (smul s (sadd R r)) D = false.
Proof.
  intros Fs Hs H1 H2 F1 F2 FD P1 P2 HD. pose proof (u_pos (A:=A)) as U.
  pose proof (Finite_real _ Fs) as Es. pose proof (Finite_real _ F1) as E1. pose proof (Finite_real _ F2) as E2. pose proof (Finite_real _ FD) as ED.
  rewrite tx_lt, tx_mul, Es. rewrite Le_tx in H1, H2. rewrite E1 in H1. rewrite E2 in H2.
  assert (G : tx (sadd R r) = PInf \/ exists v, tx (sadd R r) = Fin v /\ (real_of d1 + real_of d2) * (1 - u) <= v).
  { assert (Q : xle (Fin (real_of d1 + real_of d2)) (xadd (tx R) (tx r)) = true).
    { destruct (tx R) as [a| | |], (tx r) as [b| | |]; try discriminate; cbn [xadd]; try reflexivity. apply xle_fin in H1, H2. apply xle_fin. lra. }
    pose proof (tx_add R r) as T. destruct (tx (sadd R r)) as [v| | |] eqn:V.
    - right. exists v. split; [reflexivity|]. assert (F : Finite (sadd R r)) by (apply Finite_tx; now exists v). destruct (err_add _ _ F) as (FR & Fr & d & Hd & Ed).
      apply Rabs_le_inv in Hd. rewrite (real_of_tx _ _ V) in Ed. rewrite Ed. pose proof (Finite_real _ FR) as ER. pose proof (Finite_real _ Fr) as Er. rewrite ER in H1. rewrite Er in H2. apply xle_fin in H1, H2.
      apply Rmult_le_compat; lra.
    - now left.
    - exfalso. apply (xr_mono (A:=A)) in Q. rewrite <- T in Q. assert (N : xle (Fin 0) (xr A (Fin (real_of d1 + real_of d2))) = true) by (apply xr_nn, xle_fin; lra). destruct (xr A (Fin (real_of d1 + real_of d2))); discriminate.
    - exfalso. apply (xr_mono (A:=A)) in Q. rewrite <- T in Q. destruct (xr A (Fin (real_of d1 + real_of d2))); discriminate. }
  destruct G as [->|(v & -> & Hv)].
  - cbn [xmul]. unfold xsigned_inf. rewrite ?Rlt_bool_true by lra. cbn. rewrite ?xr_pinf. destruct (tx D); reflexivity.
  - cbn [xmul]. assert (K : xle (tx D) (xr A (Fin (real_of s * v))) = true).
    { apply xr_ge_tx. rewrite ED. apply xle_fin. assert (Pd : 0 <= real_of d1 + real_of d2) by lra. assert (Hvs : real_of s * ((real_of d1 + real_of d2) * (1 - u)) <= real_of s * v) by (apply Rmult_le_compat_l; lra).
      assert (Hss : (1 + 20 * u) * ((real_of d1 + real_of d2) * (1 - u)) <= real_of s * ((real_of d1 + real_of d2) * (1 - u))) by (apply Rmult_le_compat_r; [apply Rmult_le_pos; lra | lra]).
      assert (C : 1 + 15 * u <= (1 + 20 * u) * (1 - u)) by (assert (u * u <= / 16777216 * u) by (apply Rmult_le_compat_r; lra); lra).
      assert ((1 + 15 * u) * (real_of d1 + real_of d2) <= ((1 + 20 * u) * (1 - u)) * (real_of d1 + real_of d2)) by (apply Rmult_le_compat_r; lra). lra. }
    rewrite ED in *. destruct (xr A (Fin (real_of s * v))) as [w| | |]; try reflexivity; try discriminate. apply xlt_fin_f. now apply xle_fin.
Qed.
End A.
Lemma meas2 {A : arith} (x y : Point2 (num A)) : Measured2 x y -> Finite (p2_distance x y) /\ Rabs (real_of (p2_distance x y) - Rdist2 (RP2 x) (RP2 y)) <= 7 * unit_roundoff A * Rdist2 (RP2 x) (RP2 y).
Proof.
  intros [F [E|T]]; [|exact (C55_distance_accurate_2d_pf A x y F T)].
  destruct (err_add _ _ F) as (Fx & Fy & _). apply err_mul in Fx, Fy. destruct Fx as (Fx & _), Fy as (Fy & _). cbn [v2x v2y p2_sub v2_new] in *.
  destruct (err_sub _ _ Fx) as (F1 & F2 & _). destruct (err_sub _ _ Fy) as (F3 & F4 & _).
  pose proof (E D2X) as Ex. pose proof (E D2Y) as Ey. cbn [coord2] in *. apply Eqs_tx in Ex, Ey. destruct Ex as [Ex _], Ey as [Ey _].
  pose proof (Finite_real _ F1) as G1. pose proof (Finite_real _ F3) as G3. rewrite G1 in Ex. rewrite G3 in Ey.
  assert (T : tx (p2_distance x y) = Fin 0).
  { unfold p2_distance, v2_length, v2_dot, p2_sub, v2_new. cbn [v2x v2y]. rewrite tx_sqrt, tx_add, !tx_mul, !tx_sub, Ex, Ey, G1, G3. cbn [xsub xadd xneg]. rewrite !Rplus_opp_r. rewrite !xr_0. cbn [xmul]. rewrite Rmult_0_l, xr_0. cbn [xadd]. rewrite Rplus_0_l, xr_0. cbn [xsqrt]. rewrite Rlt_bool_false by lra. now rewrite sqrt_0, xr_0. }
  assert (Z : Rdist2 (RP2 x) (RP2 y) = 0).
  { unfold Rdist2, RP2. cbn [p2x p2y]. rewrite (real_of_tx _ _ Ex), (real_of_tx _ _ Ey). match goal with |- sqrt ?e = 0 => replace e with 0 by ring end. apply sqrt_0. }
  split; [apply Finite_tx; now exists 0|]. rewrite Z, (real_of_tx _ _ T). rewrite Rmult_0_r, Rminus_0_r, Rabs_R0. lra.
Qed.
Lemma meas3 {A : arith} (x y : Point3 (num A)) : Measured3 x y -> Finite (p3_distance x y) /\ Rabs (real_of (p3_distance x y) - Rdist3 (RP3 x) (RP3 y)) <= 7 * unit_roundoff A * Rdist3 (RP3 x) (RP3 y).
Proof.
  intros [F [E|T]]; [|exact (C55_distance_accurate_3d_pf A x y F T)].
  destruct (err_add _ _ F) as (Fxy & Fz & _). destruct (err_add _ _ Fxy) as (Fx & Fy & _). apply err_mul in Fx, Fy, Fz. destruct Fx as (Fx & _), Fy as (Fy & _), Fz as (Fz & _). cbn [v3x v3y v3z p3_sub v3_new] in *.
  destruct (err_sub _ _ Fx) as (F1 & F2 & _). destruct (err_sub _ _ Fy) as (F3 & F4 & _). destruct (err_sub _ _ Fz) as (F5 & F6 & _).
  pose proof (E D3X) as Ex. pose proof (E D3Y) as Ey. pose proof (E D3Z) as Ez. cbn [coord3] in *. apply Eqs_tx in Ex, Ey, Ez. destruct Ex as [Ex _], Ey as [Ey _], Ez as [Ez _].
  pose proof (Finite_real _ F1) as G1. pose proof (Finite_real _ F3) as G3. pose proof (Finite_real _ F5) as G5. rewrite G1 in Ex. rewrite G3 in Ey. rewrite G5 in Ez.
  assert (T : tx (p3_distance x y) = Fin 0).
  { unfold p3_distance, v3_length, v3_dot, p3_sub, v3_new. cbn [v3x v3y v3z]. rewrite tx_sqrt, !tx_add, !tx_mul, !tx_sub, Ex, Ey, Ez, G1, G3, G5. cbn [xsub xadd xneg]. rewrite !Rplus_opp_r. rewrite !xr_0. cbn [xmul]. rewrite Rmult_0_l, xr_0. cbn [xadd]. rewrite Rplus_0_l, xr_0. cbn [xadd]. rewrite Rplus_0_l, xr_0. cbn [xsqrt]. rewrite Rlt_bool_false by lra. now rewrite sqrt_0, xr_0. }
  assert (Z : Rdist3 (RP3 x) (RP3 y) = 0).
  { unfold Rdist3, RP3. cbn [p3x p3y p3z]. rewrite (real_of_tx _ _ Ex), (real_of_tx _ _ Ey), (real_of_tx _ _ Ez). match goal with |- sqrt ?e = 0 => replace e with 0 by ring end. apply sqrt_0. }
  split; [apply Finite_tx; now exists 0|]. rewrite Z, (real_of_tx _ _ T). rewrite Rmult_0_r, Rminus_0_r, Rabs_R0. lra.
Qed.
Section T2.
Context {A : arith}.
Let L := num_OrdLaws A.
Notation u := (unit_roundoff A).
Lemma meas_nn2 (x y : Point2 (num A)) : Measured2 x y -> 0 <= real_of (p2_distance x y).
Proof. intros H. destruct (meas2 x y H) as [_ E]. apply Rabs_le_inv in E. pose proof (u_pos (A:=A)) as U. assert (P : 0 <= Rdist2 (RP2 x) (RP2 y)) by apply sqrt_pos. assert (7 * u * Rdist2 (RP2 x) (RP2 y) <= 1 * Rdist2 (RP2 x) (RP2 y)) by (apply Rmult_le_compat_r; lra). lra. Qed.
Lemma skip2 (s R r : num A) (q c x : Point2 (num A)) : Finite s -> 1 + 20 * u <= real_of s -> Measured2 q c -> Measured2 c x -> Measured2 q x -> Le (p2_distance c x) r ->
  slt (smul s (sadd R r)) (p2_distance q c) = true -> sle (p2_distance q x) R = false.
Proof.
  intros Fs Hs M1 M2 M3 Hr K. apply not_true_is_false. intros H. pose proof (meas_nn2 _ _ M2). pose proof (meas_nn2 _ _ M3).
  destruct (meas2 _ _ M1) as [F1 E1]. destruct (meas2 _ _ M2) as [F2 E2]. destruct (meas2 _ _ M3) as [F3 E3].
  assert (Q : slt (smul s (sadd R r)) (p2_distance q c) = false); [|congruence].
  apply (skip_ok s R r _ (p2_distance q x) (p2_distance c x)); try assumption.
  eapply (tri_real _ _ _ _ _ _ _ 7); [apply (u_pos (A:=A)) | lra | | | | | exact E3 | exact E2 | exact E1]; try apply sqrt_pos.
  eapply Rle_trans; [apply (dist_triangle2 (RP2 q) (RP2 x) (RP2 c))|]. apply Rplus_le_compat_l, Req_le. unfold Rdist2. f_equal. ring.
Qed.
Lemma AllMeasured2_pts (q : Point2 (num A)) t : AllMeasured2 q t -> forall x, In x (bpoints2 t) -> Measured2 q x.
Proof. induction t as [p|c r l IHl h IHh]; cbn; [intros H x [<-|[]]; exact H|]. intros (_ & _ & H1 & H2) x I. apply in_app_iff in I. destruct I; [now apply IHl | now apply IHh]. Qed.
Lemma filter_none2 (f : Point2 (num A) -> bool) l : (forall x, In x l -> f x = false) -> filter f l = [].
Proof. induction l as [|a l IH]; intros H; cbn; [reflexivity|]. rewrite (H a) by now left. apply IH. intros x X. apply H. now right. Qed.
Lemma least2_ok (s : num A) (q : Point2 (num A)) t : Finite s -> 1 + 20 * u <= real_of s -> forall best, BallsOk2 t -> AllMeasured2 q t -> NoNaN best ->
  Le (least2 s q t best) best /\ (forall x, In x (bpoints2 t) -> Le (least2 s q t best) (p2_distance q x)) /\ (least2 s q t best = best \/ exists x, In x (bpoints2 t) /\ least2 s q t best = p2_distance q x).
Proof.
  intros Fs Hs. induction t as [p|c r l IHl h IHh]; intros best B M N; cbn [least2 bpoints2].
  - cbn in M. destruct (meas2 _ _ M) as [F _]. pose proof (finite_NoNaN _ F) as Np. destruct (slt (p2_distance q p) best) eqn:K.
    + split; [now apply (Lt_Le L)|]. split; [intros x [<-|[]]; now apply (Le_refl L)|]. right. exists p. split; [now left | reflexivity].
    + split; [now apply (Le_refl L)|]. split; [|now left]. intros x [<-|[]]. destruct (Le_total L _ _ N Np) as [T|T]; [exact T|]. rewrite (ol_lt _ L) in K. unfold NoNaN in *. rewrite N, Np in K. cbn in K. apply negb_false_iff in K. exact K.
  - destruct B as (B0 & B1 & B2), M as (M0 & M1 & M2 & M3). pose proof (AllMeasured2_pts q (BNode2 c r l h) (conj M0 (conj M1 (conj M2 M3)))) as MP. cbn [bpoints2] in MP.
    destruct (slt (smul s (sadd best r)) (p2_distance q c)) eqn:K.
    + split; [now apply (Le_refl L)|]. split; [|now left]. intros x X. pose proof (skip2 s best r q c x Fs Hs M0 (M1 x X) (MP x X) (B0 x X) K) as Q.
      destruct (meas2 _ _ (MP x X)) as [F _]. pose proof (finite_NoNaN _ F) as Np. destruct (Le_total L _ _ N Np) as [T|T]; [exact T|]. unfold Le in T. congruence.
    + destruct (IHl best B1 M2 N) as (L1 & L2 & L3). set (b1 := least2 s q l best) in *. assert (N1 : NoNaN b1) by exact (proj1 (Le_nan L _ _ L1)).
      destruct (IHh b1 B2 M3 N1) as (H1 & H2 & H3). set (b2 := least2 s q h b1) in *. split; [now apply (Le_trans L) with b1|]. split.
      * intros x X. apply in_app_iff in X. destruct X as [X|X]; [apply (Le_trans L) with b1; [exact H1 | now apply L2] | now apply H2].
      * destruct H3 as [->|(x & X & E)]; [|right; exists x; split; [apply in_app_iff; now right | exact E]].
        destruct L3 as [->|(x & X & E)]; [now left | right; exists x; split; [apply in_app_iff; now left | exact E]].
Qed.
End T2.
Section T3.
Context {A : arith}.
Let L := num_OrdLaws A.
Notation u := (unit_roundoff A).
Lemma meas_nn3 (x y : Point3 (num A)) : Measured3 x y -> 0 <= real_of (p3_distance x y).
Proof. intros H. destruct (meas3 x y H) as [_ E]. apply Rabs_le_inv in E. pose proof (u_pos (A:=A)) as U. assert (P : 0 <= Rdist3 (RP3 x) (RP3 y)) by apply sqrt_pos. assert (7 * u * Rdist3 (RP3 x) (RP3 y) <= 1 * Rdist3 (RP3 x) (RP3 y)) by (apply Rmult_le_compat_r; lra). lra. Qed.
Lemma skip3 (s R r : num A) (q c x : Point3 (num A)) : Finite s -> 1 + 20 * u <= real_of s -> Measured3 q c -> Measured3 c x -> Measured3 q x -> Le (p3_distance c x) r ->
  slt (smul s (sadd R r)) (p3_distance q c) = true -> sle (p3_distance q x) R = false.
Proof.
  intros Fs Hs M1 M2 M3 Hr K. apply not_true_is_false. intros H. pose proof (meas_nn3 _ _ M2). pose proof (meas_nn3 _ _ M3).
  destruct (meas3 _ _ M1) as [F1 E1]. destruct (meas3 _ _ M2) as [F2 E2]. destruct (meas3 _ _ M3) as [F3 E3].
  assert (Q : slt (smul s (sadd R r)) (p3_distance q c) = false); [|congruence].
  apply (skip_ok s R r _ (p3_distance q x) (p3_distance c x)); try assumption.
  eapply (tri_real _ _ _ _ _ _ _ 7); [apply (u_pos (A:=A)) | lra | | | | | exact E3 | exact E2 | exact E1]; try apply sqrt_pos.
  eapply Rle_trans; [apply (dist_triangle3 (RP3 q) (RP3 x) (RP3 c))|]. apply Rplus_le_compat_l, Req_le. unfold Rdist3. f_equal. ring.
Qed.
Lemma AllMeasured3_pts (q : Point3 (num A)) t : AllMeasured3 q t -> forall x, In x (bpoints3 t) -> Measured3 q x.
Proof. induction t as [p|c r l IHl h IHh]; cbn; [intros H x [<-|[]]; exact H|]. intros (_ & _ & H1 & H2) x I. apply in_app_iff in I. destruct I; [now apply IHl | now apply IHh]. Qed.
Lemma filter_none3 (f : Point3 (num A) -> bool) l : (forall x, In x l -> f x = false) -> filter f l = [].
Proof. induction l as [|a l IH]; intros H; cbn; [reflexivity|]. rewrite (H a) by now left. apply IH. intros x X. apply H. now right. Qed.
Lemma least3_ok (s : num A) (q : Point3 (num A)) t : Finite s -> 1 + 20 * u <= real_of s -> forall best, BallsOk3 t -> AllMeasured3 q t -> NoNaN best ->
  Le (least3 s q t best) best /\ (forall x, In x (bpoints3 t) -> Le (least3 s q t best) (p3_distance q x)) /\ (least3 s q t best = best \/ exists x, In x (bpoints3 t) /\ least3 s q t best = p3_distance q x).
Proof.
  intros Fs Hs. induction t as [p|c r l IHl h IHh]; intros best B M N; cbn [least3 bpoints3].
  - cbn in M. destruct (meas3 _ _ M) as [F _]. pose proof (finite_NoNaN _ F) as Np. destruct (slt (p3_distance q p) best) eqn:K.
    + split; [now apply (Lt_Le L)|]. split; [intros x [<-|[]]; now apply (Le_refl L)|]. right. exists p. split; [now left | reflexivity].
    + split; [now apply (Le_refl L)|]. split; [|now left]. intros x [<-|[]]. destruct (Le_total L _ _ N Np) as [T|T]; [exact T|]. rewrite (ol_lt _ L) in K. unfold NoNaN in *. rewrite N, Np in K. cbn in K. apply negb_false_iff in K. exact K.
  - destruct B as (B0 & B1 & B2), M as (M0 & M1 & M2 & M3). pose proof (AllMeasured3_pts q (BNode3 c r l h) (conj M0 (conj M1 (conj M2 M3)))) as MP. cbn [bpoints3] in MP.
    destruct (slt (smul s (sadd best r)) (p3_distance q c)) eqn:K.
    + split; [now apply (Le_refl L)|]. split; [|now left]. intros x X. pose proof (skip3 s best r q c x Fs Hs M0 (M1 x X) (MP x X) (B0 x X) K) as Q.
      destruct (meas3 _ _ (MP x X)) as [F _]. pose proof (finite_NoNaN _ F) as Np. destruct (Le_total L _ _ N Np) as [T|T]; [exact T|]. unfold Le in T. congruence.
    + destruct (IHl best B1 M2 N) as (L1 & L2 & L3). set (b1 := least3 s q l best) in *. assert (N1 : NoNaN b1) by exact (proj1 (Le_nan L _ _ L1)).
      destruct (IHh b1 B2 M3 N1) as (H1 & H2 & H3). set (b2 := least3 s q h b1) in *. split; [now apply (Le_trans L) with b1|]. split.
      * intros x X. apply in_app_iff in X. destruct X as [X|X]; [apply (Le_trans L) with b1; [exact H1 | now apply L2] | now apply H2].
      * destruct H3 as [->|(x & X & E)]; [|right; exists x; split; [apply in_app_iff; now right | exact E]].
        destruct L3 as [->|(x & X & E)]; [now left | right; exists x; split; [apply in_app_iff; now left | exact E]].
Qed.
End T3.
Lemma C117_range_search_2d_pf : forall (A : arith) (slack R : num A) (q : Point2 (num A)) (t : btree2 (num A)), Finite slack -> 1 + 20 * unit_roundoff A <= real_of slack -> BallsOk2 t -> AllMeasured2 q t ->
  within2 slack q R t = filter (fun x => sle (p2_distance q x) R) (bpoints2 t).
Proof.
  intros A s R q t Fs Hs. induction t as [p|c r l IHl h IHh]; intros B M; cbn [within2 bpoints2]; [reflexivity|].
  destruct B as (B0 & B1 & B2), M as (M0 & M1 & M2 & M3). pose proof (AllMeasured2_pts q (BNode2 c r l h) (conj M0 (conj M1 (conj M2 M3)))) as MP. cbn [bpoints2] in MP.
  destruct (slt (smul s (sadd R r)) (p2_distance q c)) eqn:K.
  - symmetry. apply filter_none2. intros x X. exact (skip2 s R r q c x Fs Hs M0 (M1 x X) (MP x X) (B0 x X) K).
  - now rewrite filter_app, (IHl B1 M2), (IHh B2 M3).
Qed.
Lemma C117_range_search_3d_pf : forall (A : arith) (slack R : num A) (q : Point3 (num A)) (t : btree3 (num A)), Finite slack -> 1 + 20 * unit_roundoff A <= real_of slack -> BallsOk3 t -> AllMeasured3 q t ->
  within3 slack q R t = filter (fun x => sle (p3_distance q x) R) (bpoints3 t).
Proof.
  intros A s R q t Fs Hs. induction t as [p|c r l IHl h IHh]; intros B M; cbn [within3 bpoints3]; [reflexivity|].
  destruct B as (B0 & B1 & B2), M as (M0 & M1 & M2 & M3). pose proof (AllMeasured3_pts q (BNode3 c r l h) (conj M0 (conj M1 (conj M2 M3)))) as MP. cbn [bpoints3] in MP.
  destruct (slt (smul s (sadd R r)) (p3_distance q c)) eqn:K.
  - symmetry. apply filter_none3. intros x X. exact (skip3 s R r q c x Fs Hs M0 (M1 x X) (MP x X) (B0 x X) K).
  - now rewrite filter_app, (IHl B1 M2), (IHh B2 M3).
Qed.
Lemma C117_nearest_search_2d_pf : forall (A : arith) (slack : num A) (q : Point2 (num A)) (t : btree2 (num A)), Finite slack -> 1 + 20 * unit_roundoff A <= real_of slack -> BallsOk2 t -> AllMeasured2 q t ->
  (forall x, In x (bpoints2 t) -> Le (least2 slack q t sinf) (p2_distance q x)) /\ exists x, In x (bpoints2 t) /\ least2 slack q t sinf = p2_distance q x.
Proof.
  intros A s q t Fs Hs B M. pose proof (num_OrdLaws A) as L. destruct (least2_ok s q t Fs Hs sinf B M (inf_NoNaN L)) as (H1 & H2 & H3). split; [exact H2|]. destruct H3 as [E|H3]; [|exact H3].
  assert (X : exists x, In x (bpoints2 t)). { clear. induction t as [p|c r l IHl h _]; [exists p; now left|]. destruct IHl as [x X]. exists x. cbn. apply in_app_iff. now left. }
  exfalso. destruct X as [x X]. pose proof (H2 x X) as Q. rewrite E in Q. destruct (meas2 _ _ (AllMeasured2_pts q t M x X)) as [F _]. apply Finite_tx in F. destruct F as [v V]. rewrite Le_tx, tx_inf, V in Q. discriminate.
Qed.
Lemma C117_nearest_search_3d_pf : forall (A : arith) (slack : num A) (q : Point3 (num A)) (t : btree3 (num A)), Finite slack -> 1 + 20 * unit_roundoff A <= real_of slack -> BallsOk3 t -> AllMeasured3 q t ->
  (forall x, In x (bpoints3 t) -> Le (least3 slack q t sinf) (p3_distance q x)) /\ exists x, In x (bpoints3 t) /\ least3 slack q t sinf = p3_distance q x.
Proof.
  intros A s q t Fs Hs B M. pose proof (num_OrdLaws A) as L. destruct (least3_ok s q t Fs Hs sinf B M (inf_NoNaN L)) as (H1 & H2 & H3). split; [exact H2|]. destruct H3 as [E|H3]; [|exact H3].
  assert (X : exists x, In x (bpoints3 t)). { clear. induction t as [p|c r l IHl h _]; [exists p; now left|]. destruct IHl as [x X]. exists x. cbn. apply in_app_iff. now left. }
  exfalso. destruct X as [x X]. pose proof (H2 x X) as Q. rewrite E in Q. destruct (meas3 _ _ (AllMeasured3_pts q t M x X)) as [F _]. apply Finite_tx in F. destruct F as [v V]. rewrite Le_tx, tx_inf, V in Q. discriminate.
Qed.
Lemma C117_exact_2d_pf : forall (R : num EXACT) (q : Point2 (num EXACT)) (t : btree2 (num EXACT)), Finite2 q -> BallsOk2 t -> (forall x, In x (bpoints2 t) -> Finite2 x) -> (forall c, In c (bcentres2 t) -> Finite2 c) ->
  within2 sone q R t = filter (fun x => sle (p2_distance q x) R) (bpoints2 t) /\
  (forall x, In x (bpoints2 t) -> Le (least2 sone q t sinf) (p2_distance q x)) /\ exists x, In x (bpoints2 t) /\ least2 sone q t sinf = p2_distance q x.
Proof.
  intros R q t Fq B FP FC.
  assert (M0 : forall x y : Point2 (num EXACT), Finite2 x -> Finite2 y -> Measured2 x y).
  { intros x y Fx Fy. split; [|right; cbn; lra]. destruct (proj1 (Finite_tx _) (Fx D2X)) as [a0 Ea0]. destruct (proj1 (Finite_tx _) (Fy D2X)) as [b0 Eb0]. destruct (proj1 (Finite_tx _) (Fx D2Y)) as [a1 Ea1]. destruct (proj1 (Finite_tx _) (Fy D2Y)) as [b1 Eb1]. cbn [coord2] in *. apply Finite_tx. eexists. unfold v2_dot, p2_sub, v2_new. cbn [v2x v2y]. rewrite !tx_add, !tx_mul, !tx_sub, Ea0, Eb0, Ea1, Eb1. reflexivity. }
  assert (M : AllMeasured2 (A := EXACT) q t).
  { clear B. induction t as [p|c r l IHl h IHh]; cbn in *; [apply M0; [exact Fq | apply FP; now left]|].
    split; [apply M0; [exact Fq | apply FC; now left]|]. split; [intros x X; apply M0; [apply FC; now left | now apply FP]|].
    split; [apply IHl | apply IHh]; intros x X; first [apply FP; apply in_app_iff; tauto | apply FC; right; apply in_app_iff; tauto]. }
  assert (Fs : Finite (sone : num EXACT)) by reflexivity. assert (Hs : 1 + 20 * unit_roundoff EXACT <= real_of (sone : num EXACT)) by (cbn; lra).
  split; [exact (C117_range_search_2d_pf EXACT sone R q t Fs Hs B M) | exact (C117_nearest_search_2d_pf EXACT sone q t Fs Hs B M)].
Qed.
Lemma C117_exact_3d_pf : forall (R : num EXACT) (q : Point3 (num EXACT)) (t : btree3 (num EXACT)), Finite3 q -> BallsOk3 t -> (forall x, In x (bpoints3 t) -> Finite3 x) -> (forall c, In c (bcentres3 t) -> Finite3 c) ->
  within3 sone q R t = filter (fun x => sle (p3_distance q x) R) (bpoints3 t) /\
  (forall x, In x (bpoints3 t) -> Le (least3 sone q t sinf) (p3_distance q x)) /\ exists x, In x (bpoints3 t) /\ least3 sone q t sinf = p3_distance q x.
Proof.
  intros R q t Fq B FP FC.
  assert (M0 : forall x y : Point3 (num EXACT), Finite3 x -> Finite3 y -> Measured3 x y).
  { intros x y Fx Fy. split; [|right; cbn; lra]. destruct (proj1 (Finite_tx _) (Fx D3X)) as [a0 Ea0]. destruct (proj1 (Finite_tx _) (Fy D3X)) as [b0 Eb0]. destruct (proj1 (Finite_tx _) (Fx D3Y)) as [a1 Ea1]. destruct (proj1 (Finite_tx _) (Fy D3Y)) as [b1 Eb1]. destruct (proj1 (Finite_tx _) (Fx D3Z)) as [a2 Ea2]. destruct (proj1 (Finite_tx _) (Fy D3Z)) as [b2 Eb2]. cbn [coord3] in *. apply Finite_tx. eexists. unfold v3_dot, p3_sub, v3_new. cbn [v3x v3y v3z]. rewrite !tx_add, !tx_mul, !tx_sub, Ea0, Eb0, Ea1, Eb1, Ea2, Eb2. reflexivity. }
  assert (M : AllMeasured3 (A := EXACT) q t).
  { clear B. induction t as [p|c r l IHl h IHh]; cbn in *; [apply M0; [exact Fq | apply FP; now left]|].
    split; [apply M0; [exact Fq | apply FC; now left]|]. split; [intros x X; apply M0; [apply FC; now left | now apply FP]|].
    split; [apply IHl | apply IHh]; intros x X; first [apply FP; apply in_app_iff; tauto | apply FC; right; apply in_app_iff; tauto]. }
  assert (Fs : Finite (sone : num EXACT)) by reflexivity. assert (Hs : 1 + 20 * unit_roundoff EXACT <= real_of (sone : num EXACT)) by (cbn; lra).
  split; [exact (C117_range_search_3d_pf EXACT sone R q t Fs Hs B M) | exact (C117_nearest_search_3d_pf EXACT sone q t Fs Hs B M)].
Qed.
Lemma C117_slack_is_needed_2d_pf : exists (q : Point2 (num A64)) (R : num A64) (t : btree2 (num A64)), BallsOk2 t /\ AllMeasured2 q t /\
  within2 sone q R t = [] /\ exists x, In x (bpoints2 t) /\ Le (p2_distance q x) R.
Proof.
  pose (P := fun k => mkPoint2 (d64 k 0) (d64 k 0) : Point2 (num A64)). exists (P 0%Z), (p2_distance (P 0%Z) (P 1%Z)), (BNode2 (P 4%Z) (p2_distance (P 4%Z) (P 1%Z)) (BLeaf2 (P 1%Z)) (BLeaf2 (P 1%Z))).
  split; [|split; [|split]].
  - split; [|split; exact I]. intros x [<-|[<-|[]]]; vm_compute; reflexivity.
  - split; [|split; [intros x [<-|[<-|[]]]|split]]; (split; [vm_compute; reflexivity | right; apply dot_ge_1_ok; vm_compute; reflexivity]).
  - vm_compute. reflexivity.
  - exists (P 1%Z). split; [now left | vm_compute; reflexivity].
Qed.
Lemma C117_slack_is_needed_3d_pf : exists (q : Point3 (num A64)) (R : num A64) (t : btree3 (num A64)), BallsOk3 t /\ AllMeasured3 q t /\
  within3 sone q R t = [] /\ exists x, In x (bpoints3 t) /\ Le (p3_distance q x) R.
Proof.
  pose (P := fun k => mkPoint3 (d64 k 0) (d64 k 0) (d64 k 0) : Point3 (num A64)). exists (P 0%Z), (p3_distance (P 0%Z) (P 1%Z)), (BNode3 (P 5%Z) (p3_distance (P 5%Z) (P 1%Z)) (BLeaf3 (P 1%Z)) (BLeaf3 (P 1%Z))).
  split; [|split; [|split]].
  - split; [|split; exact I]. intros x [<-|[<-|[]]]; vm_compute; reflexivity.
  - split; [|split; [intros x [<-|[<-|[]]]|split]]; (split; [vm_compute; reflexivity | right; apply dot_ge_1_ok; vm_compute; reflexivity]).
  - vm_compute. reflexivity.
  - exists (P 1%Z). split; [now left | vm_compute; reflexivity].
Qed.
