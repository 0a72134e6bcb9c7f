(** Proofs: floor, ceil, round, trunc, fract, abs. *)
From Coq Require Import Bool NArith ZArith Reals List Lra Lia.
From Flocq Require Import Core.Zaux Core.Raux Core.Defs Core.Generic_fmt Core.Float_prop Core.FLT Core.FIX Core.Round_NE IEEE754.BinarySingleNaN.
From Verif Require Import Scalar Types Vector2 Vector3 Point2 Point3 Float
  XReal OrdLaws Arith SpecOrder SpecFloat OrderProofs Comm FloatX XArith FloatLaws.
Local Open Scope R_scope.
Lemma RealVal_tx {A : arith} (x : num A) r : RealVal x r <-> tx x = Fin r.
Proof. destruct A as [f P|]; [|reflexivity]. symmetry. apply toX_fin_iff. Qed.
Lemma RealVal_fun {A : arith} (x : num A) r s : RealVal x r -> RealVal x s -> r = s.
Proof. rewrite !RealVal_tx. congruence. Qed.

Lemma nearby_val f P (m : mode) (x : num (IEEE f P)) r : RealVal x r -> @RealVal (IEEE f P) (fnearby m x) (IZR (round_mode m r)).
Proof.
  intros [Fi <-]. destruct (Bnearbyint_correct (prec f) (emax f) (prec_lt_emax f) m x) as (E & Fi' & _).
  split; [unfold fnearby; now rewrite Fi'|]. unfold fnearby. rewrite E. apply round_FIX_IZR.
Qed.
Lemma Zfloor_of r : floor_of r (Zfloor r).
Proof. split; [apply Zfloor_lb | apply Zfloor_ub]. Qed.
Lemma Zceil_of r : ceil_of r (Zceil r).
Proof.
  split; [|apply Zceil_ub]. pose proof (Zceil_lb r). lra.
Qed.
Lemma Ztrunc_of r : trunc_of r (Ztrunc r).
Proof.
  unfold trunc_of. destruct (Rle_or_lt 0 r) as [H|H].
  - rewrite Ztrunc_floor by assumption. destruct (Zfloor_of r) as [L U].
    assert (0 <= IZR (Zfloor r)) by (apply IZR_le; apply Zfloor_lub; assumption).
    rewrite !Rabs_pos_eq by assumption. split; [lra|]. now apply Rmult_le_pos.
  - rewrite Ztrunc_ceil by lra. destruct (Zceil_of r) as [L U].
    assert (IZR (Zceil r) <= 0) by (apply IZR_le; apply Zceil_glb; cbn; lra).
    rewrite !Rabs_left1 by lra. split; [lra|]. nra.
Qed.
Lemma Znearest_of r : round_of r (Znearest (Zle_bool 0) r).
Proof.
  split; [rewrite Rabs_minus_sym; replace (/ 2) with (1 / 2) by lra|].
  - rewrite Rabs_minus_sym. replace (1 / 2) with (/ 2) by lra. apply Znearest_half.
  - unfold Znearest. destruct (Rcompare_spec (r - IZR (Zfloor r)) (/ 2)) as [C|C|C].
    + pose proof (Zfloor_lb r). rewrite Rabs_pos_eq by lra. lra.
    + intros _. pose proof (Zfloor_lb r). destruct (Zle_bool 0 (Zfloor r)) eqn:E.
      * apply Zle_bool_imp_le in E. apply IZR_le in E. rewrite Zceil_floor_neq by (intros K; lra). rewrite plus_IZR.
        rewrite !Rabs_pos_eq by lra. lra.
      * apply Z.leb_gt in E. assert (Zfloor r <= -1)%Z as E' by lia. apply IZR_le in E'. rewrite !Rabs_left1 by lra. lra.
    + destruct (Req_dec (IZR (Zfloor r)) r) as [K|K]; [lra|]. rewrite Zceil_floor_neq by assumption. rewrite plus_IZR.
      pose proof (Zfloor_ub r). intros Q. rewrite Rabs_left1 in Q by lra. lra.
Qed.
Lemma Znearest_NA : forall r, round_mode mode_NA r = Znearest (Zle_bool 0) r.
Proof. reflexivity. Qed.

Lemma floor_val {A : arith} (x : num A) r : RealVal x r -> exists n, RealVal (sfloor x) (IZR n) /\ floor_of r n.
Proof.
  intros H. exists (Zfloor r). split; [|apply Zfloor_of]. destruct A as [f P|]; [apply (nearby_val f P mode_DN x r H)|].
  cbn in *. now rewrite H.
Qed.
Lemma ceil_val {A : arith} (x : num A) r : RealVal x r -> exists n, RealVal (sceil x) (IZR n) /\ ceil_of r n.
Proof.
  intros H. exists (Zceil r). split; [|apply Zceil_of]. destruct A as [f P|]; [apply (nearby_val f P mode_UP x r H)|].
  cbn in *. now rewrite H.
Qed.
Lemma round_val {A : arith} (x : num A) r : RealVal x r -> exists n, RealVal (sround x) (IZR n) /\ round_of r n.
Proof.
  intros H. exists (Znearest (Zle_bool 0) r). split; [|apply Znearest_of]. destruct A as [f P|]; [apply (nearby_val f P mode_NA x r H)|].
  cbn in *. now rewrite H.
Qed.
Lemma trunc_val' {A : arith} (x : num A) r : RealVal x r -> RealVal (strunc x) (IZR (Ztrunc r)).
Proof. intros H. destruct A as [f P|]; [apply (nearby_val f P mode_ZR x r H)|]. cbn in *. now rewrite H. Qed.
Lemma trunc_val {A : arith} (x : num A) r : RealVal x r -> exists n, RealVal (strunc x) (IZR n) /\ trunc_of r n.
Proof. intros H. exists (Ztrunc r). split; [now apply trunc_val' | apply Ztrunc_of]. Qed.
Lemma abs_val {A : arith} (x : num A) r : RealVal x r -> RealVal (sabs x) (Rabs r).
Proof. rewrite !RealVal_tx, tx_abs. intros ->. reflexivity. Qed.

(* the fractional part is representable *)
Lemma repr_fract f r : repr f r -> repr f (r - IZR (Ztrunc r)).
Proof.
  intros H. apply FLT_format_generic in H; [|apply prec_gt_0]. destruct H as [[m e] E Hm He]. cbn in Hm, He.
  destruct (Z_le_gt_dec 0 e) as [Pe|Ne].
  - assert (I : r = IZR (m * 2 ^ e)).
    { rewrite E. unfold F2R. cbn [Fnum Fexp]. rewrite mult_IZR. f_equal. rewrite <- IZR_Zpower by assumption. reflexivity. }
    rewrite I, Ztrunc_IZR. replace (IZR (m * 2 ^ e) - IZR (m * 2 ^ e)) with 0 by ring. apply repr_0.
  - apply generic_format_FLT.
    assert (P2 : IZR (2 ^ (- e)) * bpow radix2 e = 1).
    { assert (Q : IZR (2 ^ (- e)) = bpow radix2 (- e)) by (apply (IZR_Zpower radix2 (- e)); lia). rewrite Q, <- bpow_plus. replace (- e + e)%Z with 0%Z by lia. reflexivity. }
    exists (Float radix2 (m - Ztrunc r * 2 ^ (- e)) e).
    + unfold F2R. cbn [Fnum Fexp]. rewrite minus_IZR, mult_IZR. rewrite Rmult_minus_distr_r, Rmult_assoc, P2, Rmult_1_r.
      rewrite E at 1. reflexivity.
    + cbn [Fnum]. apply Z.le_lt_trans with (2 := Hm). apply le_IZR. rewrite !abs_IZR, minus_IZR, mult_IZR.
      assert (B : 0 < bpow radix2 e) by apply bpow_gt_0.
      apply Rmult_le_reg_r with (1 := B). rewrite <- (Rabs_pos_eq (bpow radix2 e)) by lra. rewrite <- !Rabs_mult.
      rewrite Rmult_minus_distr_r, Rmult_assoc, P2, Rmult_1_r.
      replace (IZR m * bpow radix2 e) with r by (rewrite E; reflexivity).
      destruct (Ztrunc_of r) as [[L U] S]. destruct (Rle_or_lt 0 r) as [K|K].
      * assert (0 <= IZR (Ztrunc r)). { rewrite Ztrunc_floor by assumption. apply IZR_le. now apply Zfloor_lub. }
        rewrite (Rabs_pos_eq r) in * by assumption. rewrite (Rabs_pos_eq (IZR (Ztrunc r))) in * by assumption. rewrite Rabs_pos_eq by lra. lra.
      * assert (IZR (Ztrunc r) <= 0). { rewrite Ztrunc_ceil by lra. apply IZR_le. apply Zceil_glb. cbn. lra. }
        rewrite (Rabs_left1 r) in * by lra. rewrite (Rabs_left1 (IZR (Ztrunc r))) in * by assumption. rewrite Rabs_left1 by lra. lra.
    + exact He.
Qed.
Lemma fract_bounds r : let s := r - IZR (Ztrunc r) in Rabs s < 1 /\ 0 <= s * r.
Proof.
  cbv zeta. destruct (Ztrunc_of r) as [[L U] S]. destruct (Rle_or_lt 0 r) as [K|K].
  - assert (0 <= IZR (Ztrunc r)). { rewrite Ztrunc_floor by assumption. apply IZR_le. now apply Zfloor_lub. }
    rewrite (Rabs_pos_eq r) in * by assumption. rewrite (Rabs_pos_eq (IZR (Ztrunc r))) in * by assumption. rewrite Rabs_pos_eq by lra. split; [lra|]. apply Rmult_le_pos; lra.
  - assert (IZR (Ztrunc r) <= 0). { rewrite Ztrunc_ceil by lra. apply IZR_le. apply Zceil_glb. cbn. lra. }
    rewrite (Rabs_left1 r) in * by lra. rewrite (Rabs_left1 (IZR (Ztrunc r))) in * by assumption. rewrite Rabs_left1 by lra. split; [lra|].
    replace ((r - IZR (Ztrunc r)) * r) with ((- (r - IZR (Ztrunc r))) * (- r)) by ring. apply Rmult_le_pos; lra.
Qed.
Lemma fract_val {A : arith} (x : num A) r n : RealVal x r -> RealVal (strunc x) (IZR n) ->
  RealVal (sfract x) (r - IZR n) /\ Rabs (r - IZR n) < 1 /\ 0 <= (r - IZR n) * r /\ Eqs (sadd (strunc x) (sfract x)) x.
Proof.
  intros H T. assert (E : IZR n = IZR (Ztrunc r)) by (apply (RealVal_fun _ _ _ T); now apply trunc_val'). rewrite E in *.
  destruct (fract_bounds r) as [B S].
  assert (D : sfract x = ssub x (strunc x)) by (destruct A; reflexivity).
  assert (V : tx (sfract x) = Fin (r - IZR (Ztrunc r))).
  { apply RealVal_tx in H. apply RealVal_tx in T. rewrite D, tx_sub, H, T. cbn [xsub xneg xadd].
    destruct A as [f P|]; [|reflexivity]. cbn [xr].
    destruct (repr_tx f P x r H) as [Rr Br]. apply xround_repr; [now apply repr_fract|].
    apply Rlt_trans with (1 := B). change 1 with (bpow radix2 0). apply bpow_lt. destruct f; reflexivity. }
  split; [now apply RealVal_tx|]. split; [assumption|]. split; [assumption|].
  apply Eqs_tx. apply RealVal_tx in T. rewrite tx_add, V, T. cbn [xadd]. apply RealVal_tx in H. rewrite H.
  replace (IZR (Ztrunc r) + (r - IZR (Ztrunc r))) with r by ring. rewrite <- H at 1. rewrite <- H, xr_tx.
  split; [reflexivity|]. rewrite H. discriminate.
Qed.
Lemma C33_point_elementwise_2d_pf : forall (A : arith) (p : Point2 (num A)) d r, RealVal (coord2 p d) r ->
  (exists n, RealVal (coord2 (p2_floor p) d) (IZR n) /\ floor_of r n) /\
  (exists n, RealVal (coord2 (p2_ceil p) d) (IZR n) /\ ceil_of r n) /\
  (exists n, RealVal (coord2 (p2_round p) d) (IZR n) /\ round_of r n) /\
  (exists n, RealVal (coord2 (p2_trunc p) d) (IZR n) /\ trunc_of r n /\
     (* fract = x - trunc x without rounding, |fract| < 1, sign of x; trunc + fract == x *)
     RealVal (coord2 (p2_fract p) d) (r - IZR n) /\ Rabs (r - IZR n) < 1 /\ 0 <= (r - IZR n) * r /\
     Eqs (sadd (coord2 (p2_trunc p) d) (coord2 (p2_fract p) d)) (coord2 p d)) /\
  RealVal (coord2 (p2_abs p) d) (Rabs r).
Proof.
  intros A p d r H. destruct (trunc_val _ _ H) as (n & T & S). pose proof (fract_val _ _ _ H T) as Q.
  pose proof (floor_val _ _ H). pose proof (ceil_val _ _ H). pose proof (round_val _ _ H). pose proof (abs_val _ _ H).
  destruct d; (split; [|split; [|split; [|split]]]; try assumption; exists n; exact (conj T (conj S Q))).
Qed.
Lemma C33_point_elementwise_3d_pf : forall (A : arith) (p : Point3 (num A)) d r, RealVal (coord3 p d) r ->
  (exists n, RealVal (coord3 (p3_floor p) d) (IZR n) /\ floor_of r n) /\
  (exists n, RealVal (coord3 (p3_ceil p) d) (IZR n) /\ ceil_of r n) /\
  (exists n, RealVal (coord3 (p3_round p) d) (IZR n) /\ round_of r n) /\
  (exists n, RealVal (coord3 (p3_trunc p) d) (IZR n) /\ trunc_of r n /\
     (* fract = x - trunc x without rounding, |fract| < 1, sign of x; trunc + fract == x *)
     RealVal (coord3 (p3_fract p) d) (r - IZR n) /\ Rabs (r - IZR n) < 1 /\ 0 <= (r - IZR n) * r /\
     Eqs (sadd (coord3 (p3_trunc p) d) (coord3 (p3_fract p) d)) (coord3 p d)) /\
  RealVal (coord3 (p3_abs p) d) (Rabs r).
Proof.
  intros A p d r H. destruct (trunc_val _ _ H) as (n & T & S). pose proof (fract_val _ _ _ H T) as Q.
  pose proof (floor_val _ _ H). pose proof (ceil_val _ _ H). pose proof (round_val _ _ H). pose proof (abs_val _ _ H).
  destruct d; (split; [|split; [|split; [|split]]]; try assumption; exists n; exact (conj T (conj S Q))).
Qed.
Lemma C33_vector_elementwise_2d_pf : forall (A : arith) (v : Vector2 (num A)) d r, RealVal (vcoord2 v d) r ->
  (exists n, RealVal (vcoord2 (v2_floor v) d) (IZR n) /\ floor_of r n) /\
  (exists n, RealVal (vcoord2 (v2_ceil v) d) (IZR n) /\ ceil_of r n) /\
  (exists n, RealVal (vcoord2 (v2_round v) d) (IZR n) /\ round_of r n) /\
  (exists n, RealVal (vcoord2 (v2_trunc v) d) (IZR n) /\ trunc_of r n /\
     RealVal (vcoord2 (v2_fract v) d) (r - IZR n) /\ Rabs (r - IZR n) < 1 /\ 0 <= (r - IZR n) * r /\
     Eqs (sadd (vcoord2 (v2_trunc v) d) (vcoord2 (v2_fract v) d)) (vcoord2 v d)) /\
  RealVal (vcoord2 (v2_abs v) d) (Rabs r).
Proof.
  intros A p d r H. destruct (trunc_val _ _ H) as (n & T & S). pose proof (fract_val _ _ _ H T) as Q.
  pose proof (floor_val _ _ H). pose proof (ceil_val _ _ H). pose proof (round_val _ _ H). pose proof (abs_val _ _ H).
  destruct d; (split; [|split; [|split; [|split]]]; try assumption; exists n; exact (conj T (conj S Q))).
Qed.
Lemma C33_vector_elementwise_3d_pf : forall (A : arith) (v : Vector3 (num A)) d r, RealVal (vcoord3 v d) r ->
  (exists n, RealVal (vcoord3 (v3_floor v) d) (IZR n) /\ floor_of r n) /\
  (exists n, RealVal (vcoord3 (v3_ceil v) d) (IZR n) /\ ceil_of r n) /\
  (exists n, RealVal (vcoord3 (v3_round v) d) (IZR n) /\ round_of r n) /\
  (exists n, RealVal (vcoord3 (v3_trunc v) d) (IZR n) /\ trunc_of r n /\
     RealVal (vcoord3 (v3_fract v) d) (r - IZR n) /\ Rabs (r - IZR n) < 1 /\ 0 <= (r - IZR n) * r /\
     Eqs (sadd (vcoord3 (v3_trunc v) d) (vcoord3 (v3_fract v) d)) (vcoord3 v d)) /\
  RealVal (vcoord3 (v3_abs v) d) (Rabs r).
Proof.
  intros A p d r H. destruct (trunc_val _ _ H) as (n & T & S). pose proof (fract_val _ _ _ H T) as Q.
  pose proof (floor_val _ _ H). pose proof (ceil_val _ _ H). pose proof (round_val _ _ H). pose proof (abs_val _ _ H).
  destruct d; (split; [|split; [|split; [|split]]]; try assumption; exists n; exact (conj T (conj S Q))).
Qed.
Lemma floor_unique r n m : floor_of r n -> floor_of r m -> n = m.
Proof. unfold floor_of. intros [A B] [C D]. assert (IZR n < IZR m + 1) by lra. assert (IZR m < IZR n + 1) by lra. rewrite <- plus_IZR in *. apply lt_IZR in H, H0. lia. Qed.
Lemma ceil_unique r n m : ceil_of r n -> ceil_of r m -> n = m.
Proof. unfold ceil_of. intros [A B] [C D]. assert (IZR n < IZR m + 1) by lra. assert (IZR m < IZR n + 1) by lra. rewrite <- plus_IZR in *. apply lt_IZR in H, H0. lia. Qed.
Lemma trunc_unique r n m : trunc_of r n -> trunc_of r m -> n = m.
Proof.
  unfold trunc_of. intros [[A B] S] [[C D] T]. rewrite <- !abs_IZR in *.
  assert (E : Z.abs n = Z.abs m).
  { assert (IZR (Z.abs n) < IZR (Z.abs m) + 1) by lra. assert (IZR (Z.abs m) < IZR (Z.abs n) + 1) by lra. rewrite <- plus_IZR in *. apply lt_IZR in H, H0. lia. }
  assert (H : (n = m \/ n = - m)%Z) by lia. destruct H as [H|H]; [assumption|].
  destruct (Z.eq_dec m 0) as [Z|Z]; [lia|]. subst n. rewrite opp_IZR in S.
  assert (M : IZR m * r = 0) by lra. apply Rmult_integral in M. destruct M as [M|M]; [apply eq_IZR in M; contradiction|].
  subst r. rewrite Rabs_R0 in C. assert (IZR (Z.abs m) <= 0) by lra. apply le_IZR in H. lia.
Qed.
Lemma round_unique r n m : round_of r n -> round_of r m -> n = m.
Proof.
  unfold round_of. intros [A B] [C D].
  assert (K : Rabs (IZR n - IZR m) <= 1).
  { replace (IZR n - IZR m) with ((r - IZR m) - (r - IZR n)) by ring. eapply Rle_trans; [apply Rabs_triang|]. rewrite Rabs_Ropp. lra. }
  rewrite <- minus_IZR, <- abs_IZR in K. apply le_IZR in K. destruct (Z.eq_dec n m) as [|N]; [assumption|]. exfalso.
  assert (H : (n = m + 1 \/ m = n + 1)%Z) by lia.
  destruct H as [->| ->]; rewrite plus_IZR in *.
  - assert (E : r - IZR m = / 2). { apply Rabs_le_inv in A. apply Rabs_le_inv in C. lra. }
    assert (B' := B ltac:(replace (r - (IZR m + 1)) with (- / 2) by lra; rewrite Rabs_Ropp; apply Rabs_pos_eq; lra)).
    assert (D' := D ltac:(rewrite E; apply Rabs_pos_eq; lra)).
    replace r with (IZR m + / 2) in * by lra. assert (I : (IZR m <= -1 \/ 0 <= IZR m)) by (destruct (Z_lt_le_dec m 0); [left | right]; apply IZR_le; lia).
    revert B' D'. unfold Rabs. repeat destruct Rcase_abs; lra.
  - assert (E : r - IZR n = / 2). { apply Rabs_le_inv in A. apply Rabs_le_inv in C. lra. }
    assert (B' := B ltac:(rewrite E; apply Rabs_pos_eq; lra)).
    assert (D' := D ltac:(replace (r - (IZR n + 1)) with (- / 2) by lra; rewrite Rabs_Ropp; apply Rabs_pos_eq; lra)).
    replace r with (IZR n + / 2) in * by lra. assert (I : (IZR n <= -1 \/ 0 <= IZR n)) by (destruct (Z_lt_le_dec n 0); [left | right]; apply IZR_le; lia).
    revert B' D'. unfold Rabs. repeat destruct Rcase_abs; lra.
Qed.
Lemma C33_integers_are_unique_pf : forall (r : R) (n m : Z), (floor_of r n -> floor_of r m -> n = m) /\ (ceil_of r n -> ceil_of r m -> n = m) /\
  (round_of r n -> round_of r m -> n = m) /\ (trunc_of r n -> trunc_of r m -> n = m).
Proof.
  intros r n m. split; [apply floor_unique|]. split; [apply ceil_unique|]. split; [apply round_unique | apply trunc_unique].
Qed.
