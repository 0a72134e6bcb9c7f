(** Proofs: accuracy of the ray-box test in floating point. *)
From Coq Require Import Bool NArith ZArith Reals List Lra Lia Psatz.
From Flocq Require Import Core.Raux Core.Zaux Core.Defs.
From Verif Require Import Scalar Types Vector2 Vector3 Point2 Point3 Ray BoundingBox2 BoundingBox3 Float
  XReal OrdLaws Arith SpecOrder SpecFloat SpecReal SpecErr SpecRay OrderProofs FloatX XArith FloatLaws ErrBase SlabBase FloatRay FloatInv ExVals.
Import ListNotations.
Local Open Scope R_scope.
Section R.
Context {A : arith}.
Notation t0 := (min_subnormal A). Notation u := (unit_roundoff A).
Implicit Types c v x y o d lo hi s e : num A.
Definition up (q : R) := q + slack A q.
Definition dn (q : R) := q - slack A q.
Lemma up_lt p q : p < q -> up p < up q.
Proof. intros H. unfold up, slack. pose proof (u_pos (A:=A)) as [U1 U2]. assert (K : Rabs p - Rabs q <= q - p) by (pose proof (Rabs_triang_inv p q) as K; rewrite (Rabs_left (p - q)) in K by lra; lra). nra. Qed.
Lemma dn_lt p q : p < q -> dn p < dn q.
Proof. intros H. unfold dn, slack. pose proof (u_pos (A:=A)) as [U1 U2]. assert (K : Rabs q - Rabs p <= q - p) by (pose proof (Rabs_triang_inv q p) as K; rewrite (Rabs_right (q - p)) in K by lra; lra). nra. Qed.
Lemma up_le p q : p <= q -> up p <= up q.
Proof. intros [H| ->]; [left; now apply up_lt | lra]. Qed.
Lemma dn_le p q : p <= q -> dn p <= dn q.
Proof. intros [H| ->]; [left; now apply dn_lt | lra]. Qed.
Lemma dn_inv p q : dn p <= dn q -> p <= q.
Proof. intros H. destruct (Rle_lt_dec p q) as [|K]; [assumption|]. apply dn_lt in K. lra. Qed.
Lemma up_inv p q : up p <= up q -> p <= q.
Proof. intros H. destruct (Rle_lt_dec p q) as [|K]; [assumption|]. apply up_lt in K. lra. Qed.
(* c is a computed parameter, q the exact one *)
Definition nearp c q := NoNaN c /\ forall v, Finite v -> (Le c v -> dn q <= real_of v) /\ (Lt c v -> dn q < real_of v) /\ (Le v c -> real_of v <= up q) /\ (Lt v c -> real_of v < up q).
Lemma Le_real x y : Finite x -> Finite y -> (Le x y <-> real_of x <= real_of y).
Proof. intros Fx Fy. rewrite Le_tx, (Finite_real x Fx), (Finite_real y Fy). apply xle_fin. Qed.
Lemma Lt_real x y : Finite x -> Finite y -> (Lt x y <-> real_of x < real_of y).
Proof. intros Fx Fy. unfold Lt. rewrite tx_lt, (Finite_real x Fx), (Finite_real y Fy). apply xlt_fin. Qed.
Lemma near_fin c q : Finite c -> dn q <= real_of c <= up q -> nearp c q.
Proof.
  intros F H. split; [apply NoNaN_tx; rewrite (Finite_real c F); discriminate|]. intros v Fv. rewrite !Le_real, !Lt_real by assumption. lra.
Qed.
Lemma two_err (D : R) x1 (q1 d1 d2 e : R) : real_of x1 = D * (1 + d1) -> Rabs d1 <= u -> Rabs d2 <= u -> Rabs e <= t0 / 2 -> q1 <> 0 ->
  dn (D / q1) <= real_of x1 / q1 * (1 + d2) + e <= up (D / q1).
Proof.
  intros E H1 H2 H3 Q. rewrite E. replace (D * (1 + d1) / q1 * (1 + d2) + e) with (D / q1 * ((1 + d1) * (1 + d2)) + e) by (field; assumption).
  set (q := D / q1). unfold dn, up, slack. pose proof (u_pos (A:=A)) as [U1 U2]. pose proof (t_pos (A:=A)) as T.
  apply Rabs_le_inv in H1, H2, H3. assert (K : Rabs (q * ((1 + d1) * (1 + d2) - 1)) <= Rabs q * (3 * u)).
  { rewrite Rabs_mult. apply Rmult_le_compat_l; [apply Rabs_pos|]. apply Rabs_le. nra. }
  apply Rabs_le_inv in K. lra.
Qed.
Lemma near_quo lo o d : Finite (ssub lo o) -> Finite d -> real_of d <> 0 -> nearp (sdiv (ssub lo o) d) ((real_of lo - real_of o) / real_of d).
Proof.
  intros F Fd D. destruct (err_sub lo o F) as (Fl & Fo & d1 & H1 & H2).
  pose proof (Finite_real _ F) as Ex. pose proof (Finite_real _ Fd) as Ed.
  assert (E : tx (sdiv (ssub lo o) d) = xr A (Fin (real_of (ssub lo o) / real_of d))).
  { rewrite tx_div by (rewrite Ed; congruence). rewrite Ex, Ed. cbn [xdiv]. now rewrite Req_bool_false. }
  destruct (arnd_err (A:=A) (real_of (ssub lo o) / real_of d)) as (d2 & e & H3 & H4 & H5).
  pose proof (two_err _ _ _ _ _ _ H2 H1 H3 H4 D) as K. rewrite <- H5 in K.
  set (q := (real_of lo - real_of o) / real_of d) in *. clearbody q. set (w := real_of (ssub lo o) / real_of d) in *. clearbody w. clear -E K.
  set (c := sdiv (ssub lo o) d) in *. clearbody c. clear lo o d.
  destruct (tx c) as [r| | |] eqn:Ec.
  - apply Finite_intro in Ec. destruct Ec as [Fc Rc]. apply near_fin; [assumption|]. rewrite Rc. symmetry in E. apply xr_fin_inv in E. now rewrite E.
  - split; [apply NoNaN_tx; rewrite Ec; discriminate|]. intros v Fv. unfold Lt. rewrite !Le_tx, !tx_lt, Ec. pose proof (Finite_real v Fv) as Ev. rewrite Ev.
    split; [discriminate|]. split; [discriminate|]. assert (real_of v < up q); [|split; intros _; lra].
    revert c v Fv Ev Ec E. unfold arnd in K. destruct A as [f P|]; [|discriminate]. intros. destruct (repr_tx f P v _ Ev) as [_ B].
    cbn [xr] in E. apply Rabs_lt_inv in B. revert E. destruct (xround_cases f w); try discriminate; intros _; lra.
  - split; [apply NoNaN_tx; rewrite Ec; discriminate|]. intros v Fv. unfold Lt. rewrite !Le_tx, !tx_lt, Ec. pose proof (Finite_real v Fv) as Ev. rewrite Ev.
    assert (dn q < real_of v); [|split; [intros _; lra|]; split; [intros _; lra|]; split; discriminate].
    revert c v Fv Ev Ec E. unfold arnd in K. destruct A as [f P|]; [|discriminate]. intros. destruct (repr_tx f P v _ Ev) as [_ B].
    cbn [xr] in E. apply Rabs_lt_inv in B. revert E. destruct (xround_cases f w); try discriminate; intros _; lra.
  - exfalso. pose proof (xr_nan (A:=A) (Fin w)) as N. rewrite <- E in N. discriminate.
Qed.
Lemma near_tx c c' q : tx c = tx c' -> nearp c q -> nearp c' q.
Proof. intros E [N H]. split; [apply NoNaN_tx; rewrite <- E; now apply NoNaN_tx|]. intros v Fv. specialize (H v Fv). unfold Lt in *. rewrite !Le_tx, !tx_lt in *. rewrite <- E. exact H. Qed.
Lemma smin_Le x y : Le x y -> tx (s_min x y) = tx x /\ tx (s_max x y) = tx y.
Proof.
  intros H. pose proof (Le_nan (num_OrdLaws A) _ _ H) as [Nx Ny]. apply Le_tx in H. apply NoNaN_tx in Nx, Ny. rewrite tx_smin, tx_smax. unfold xmin, xmax.
  destruct (tx x) eqn:Ex, (tx y) eqn:Ey; try congruence; cbn [xnan]; rewrite ?H; try (split; reflexivity); try discriminate.
Qed.
Lemma smin_Ge x y : Le y x -> tx (s_min x y) = tx y /\ tx (s_max x y) = tx x.
Proof.
  intros H. pose proof (Le_nan (num_OrdLaws A) _ _ H) as [Ny Nx]. apply Le_tx in H. apply NoNaN_tx in Nx, Ny. rewrite tx_smin, tx_smax. unfold xmin, xmax.
  destruct (tx x) as [a| | |] eqn:Ex, (tx y) as [b| | |] eqn:Ey; try congruence; cbn [xnan]; try (split; reflexivity); try discriminate.
  apply xle_fin in H. cbn [xle]. destruct (Rle_bool_spec a b); [replace a with b by lra|]; split; reflexivity.
Qed.
(* one axis *)
Inductive axis lo hi o d : Prop :=
| axis_move : forall a b, real_of d <> 0 -> (0 < real_of d /\ a = (real_of lo - real_of o) / real_of d /\ b = (real_of hi - real_of o) / real_of d \/
                real_of d < 0 /\ a = (real_of hi - real_of o) / real_of d /\ b = (real_of lo - real_of o) / real_of d) ->
    nearp (near lo hi o d) a -> nearp (far lo hi o d) b -> axis lo hi o d
| axis_flat : real_of d = 0 -> real_of lo <= real_of o <= real_of hi -> tx (near lo hi o d) = XNaN \/ tx (near lo hi o d) = NInf ->
    tx (far lo hi o d) = XNaN \/ tx (far lo hi o d) = PInf -> axis lo hi o d
| axis_miss : real_of d = 0 -> ~ (real_of lo < real_of o < real_of hi) -> ~ (real_of lo = real_of o /\ real_of hi = real_of o) -> tx (near lo hi o d) = PInf \/ tx (far lo hi o d) = NInf -> axis lo hi o d.
Lemma axis_spec lo hi o d : Le lo hi -> Finite (ssub lo o) -> Finite (ssub hi o) -> Finite d -> axis lo hi o d.
Proof.
  intros L F1 F2 Fd. destruct (err_sub _ _ F1) as (Fl & Fo & _). destruct (err_sub _ _ F2) as (Fh & _ & _).
  pose proof (Finite_real _ Fd) as Ed. pose proof (Finite_real _ Fo) as Eo. pose proof (Finite_real _ Fl) as El. pose proof (Finite_real _ Fh) as Eh.
  pose proof (proj1 (Le_real _ _ Fl Fh) L) as LR.
  destruct (Rtotal_order (real_of d) 0) as [N|[Z|N]].
  - eapply axis_move; [lra | right; split; [exact N|]; split; reflexivity | |].
    + eapply near_tx; [|apply near_quo; [exact F2 | assumption | lra]]. symmetry. apply smin_Ge. eapply quo_mono_neg; eassumption.
    + eapply near_tx; [|apply near_quo; [exact F1 | assumption | lra]]. symmetry. apply smin_Ge. eapply quo_mono_neg; eassumption.
  - rewrite Z in Ed. destruct (div_zero d Ed) as [b Q].
    assert (S1 : real_of lo < real_of o -> xlt (tx (ssub lo o)) (Fin 0) = true) by (intros K; apply (sub_neg lo o _ Eo); rewrite El; now apply xlt_fin).
    assert (S2 : real_of o < real_of lo -> xlt (Fin 0) (tx (ssub lo o)) = true) by (intros K; apply (sub_pos lo o _ Eo); rewrite El; now apply xlt_fin).
    assert (S3 : real_of hi < real_of o -> xlt (tx (ssub hi o)) (Fin 0) = true) by (intros K; apply (sub_neg hi o _ Eo); rewrite Eh; now apply xlt_fin).
    assert (S4 : real_of o < real_of hi -> xlt (Fin 0) (tx (ssub hi o)) = true) by (intros K; apply (sub_pos hi o _ Eo); rewrite Eh; now apply xlt_fin).
    assert (Z1 : real_of lo = real_of o -> tx (sdiv (ssub lo o) d) = XNaN).
    { intros K. rewrite Q, tx_sub, El, Eo, K. cbn [xsub xneg xadd]. replace (real_of o + - real_of o) with 0 by ring. rewrite xr_0. unfold zq, xsigned_inf. rewrite !Rlt_bool_false by lra. now destruct b. }
    assert (Z2 : real_of hi = real_of o -> tx (sdiv (ssub hi o) d) = XNaN).
    { intros K. rewrite Q, tx_sub, Eh, Eo, K. cbn [xsub xneg xadd]. replace (real_of o + - real_of o) with 0 by ring. rewrite xr_0. unfold zq, xsigned_inf. rewrite !Rlt_bool_false by lra. now destruct b. }
    pose proof (fun K => eq_trans (Q _) (zq_neg b _ (S1 K))) as D1. pose proof (fun K => eq_trans (Q _) (zq_pos b _ (S2 K))) as D2.
    pose proof (fun K => eq_trans (Q _) (zq_neg b _ (S3 K))) as D3. pose proof (fun K => eq_trans (Q _) (zq_pos b _ (S4 K))) as D4. clear Q S1 S2 S3 S4.
    destruct (Rtotal_order (real_of lo) (real_of o)) as [K|[K|K]]; destruct (Rtotal_order (real_of hi) (real_of o)) as [K'|[K'|K']]; try (exfalso; lra);
      first [specialize (D1 K) | specialize (Z1 K) | specialize (D2 K)]; first [specialize (D3 K') | specialize (Z2 K') | specialize (D4 K')]; repeat match goal with D : _ -> tx _ = _ |- _ => clear D end; repeat match goal with D : tx (sdiv _ _) = _ |- _ => revert D end; intros DA DB;
      ((apply axis_flat; [assumption | lra |..]; unfold near, far; rewrite ?tx_smin, ?tx_smax, ?DA, ?DB; destruct b; (left; reflexivity) || (right; reflexivity)) ||
       (apply axis_miss; [assumption | intros [? ?]; lra | intros [? ?]; lra |..]; unfold near, far; rewrite ?tx_smin, ?tx_smax, ?DA, ?DB; destruct b; (left; reflexivity) || (right; reflexivity))).
  - eapply axis_move; [lra | left; split; [exact N|]; split; reflexivity | |].
    + eapply near_tx; [|apply near_quo; [exact F1 | assumption | lra]]. symmetry. apply smin_Le. eapply quo_mono_pos; eassumption.
    + eapply near_tx; [|apply near_quo; [exact F2 | assumption | lra]]. symmetry. apply smin_Le. eapply quo_mono_pos; eassumption.
Qed.

Definition hit1 lo hi o d (t : R) : Prop := real_of lo <= real_of o + t * real_of d <= real_of hi.
Lemma hit1_move lo hi o d a b (t : R) : (0 < real_of d /\ a = (real_of lo - real_of o) / real_of d /\ b = (real_of hi - real_of o) / real_of d \/
    real_of d < 0 /\ a = (real_of hi - real_of o) / real_of d /\ b = (real_of lo - real_of o) / real_of d) -> (hit1 lo hi o d t <-> a <= t <= b).
Proof.
  unfold hit1. generalize (real_of lo) (real_of hi) (real_of o) (real_of d). intros l h q r [(P & -> & ->)|(P & -> & ->)].
  - assert (E : forall z, z = z / r * r) by (intros; field; lra). rewrite (E (l - q)), (E (h - q)) in *. 
    assert (forall z w, z / r * r = w -> z = w) by (intros; rewrite <- E in *; assumption).
    split; intros [H1 H2]; split.
    + apply Rmult_le_reg_r with r; [lra|]. rewrite <- E. rewrite <- E. lra.
    + apply Rmult_le_reg_r with r; [lra|]. rewrite <- E. rewrite <- E. lra.
    + apply (Rmult_le_compat_r r) in H1; [|lra]. rewrite <- !E in H1. lra.
    + apply (Rmult_le_compat_r r) in H2; [|lra]. rewrite <- !E in H2. lra.
  - assert (E : forall z, z = z / r * r) by (intros; field; lra).
    split; intros [H1 H2]; split.
    + apply Ropp_le_cancel, Rmult_le_reg_r with (- r); [lra|]. rewrite !Rmult_opp_opp, <- E. lra.
    + apply Ropp_le_cancel, Rmult_le_reg_r with (- r); [lra|]. rewrite !Rmult_opp_opp, <- E. lra.
    + apply Ropp_le_contravar, (Rmult_le_compat_r (- r)) in H2; [|lra]. rewrite !Rmult_opp_opp, <- !E in H2. lra.
    + apply Ropp_le_contravar, (Rmult_le_compat_r (- r)) in H1; [|lra]. rewrite !Rmult_opp_opp, <- !E in H1. lra.
Qed.

Lemma not_Le_pinf c v : tx c = PInf -> Finite v -> Le c v -> False.
Proof. intros E F H. apply Le_tx in H. rewrite E, (Finite_real v F) in H. discriminate. Qed.
Lemma not_Le_ninf c v : tx c = NInf -> Le szero v -> Le v c -> False.
Proof. intros E H1 H2. apply Le_tx in H1, H2. rewrite E in H2. rewrite tx_0 in H1. destruct (tx v); discriminate. Qed.
Definition cov c (P : Prop) := ~ NoNaN c \/ P.
Lemma NaN_no c : ~ NoNaN c <-> tx c = XNaN.
Proof. rewrite NoNaN_tx. destruct (tx c); split; intros H; try discriminate; try (exfalso; apply H; discriminate); congruence. Qed.
Lemma cov_num c P : NoNaN c -> cov c P -> P.
Proof. intros N [H|H]; [contradiction | exact H]. Qed.
(* inside the computed range, away from its ends, the exact point is inside *)
Lemma axis_inner lo hi o d s e (t : R) : axis lo hi o d -> cov (near lo hi o d) (Le (near lo hi o d) s) -> cov (far lo hi o d) (Le e (far lo hi o d)) ->
  Le szero s -> Le s e -> Finite s -> Finite e -> real_of s <= dn t -> up t <= real_of e -> hit1 lo hi o d t.
Proof.
  intros [a b D E [N1 H1] [N2 H2]|D I _ _|D _ _ M] C1 C2 S0 SE Fs Fe L1 L2.
  - apply (hit1_move _ _ _ _ a b); [assumption|]. apply cov_num in C1, C2; try assumption.
    destruct (H1 s Fs) as (K1 & _). destruct (H2 e Fe) as (_ & _ & K2 & _). split; [apply dn_inv | apply up_inv]; [specialize (K1 C1) | specialize (K2 C2)]; lra.
  - unfold hit1. rewrite D. lra.
  - exfalso. destruct M as [M|M].
    + apply cov_num in C1; [|apply NoNaN_tx; rewrite M; discriminate]. exact (not_Le_pinf _ _ M Fs C1).
    + apply cov_num in C2; [|apply NoNaN_tx; rewrite M; discriminate]. refine (not_Le_ninf _ e M _ C2). eapply (Le_trans (num_OrdLaws A)); eassumption.
Qed.
(* at every parameter of the computed range the exact point is inside the box with slightly moved faces *)
Definition hitw lo hi o d (t : R) : Prop := let w x := 3 * u * Rabs (real_of x - real_of o) + t0 * Rabs (real_of d) in
  real_of lo - w lo <= real_of o + t * real_of d <= real_of hi + w hi.
Lemma axis_outer lo hi o d s e (t : R) : axis lo hi o d -> cov (near lo hi o d) (Le (near lo hi o d) s) -> cov (far lo hi o d) (Le e (far lo hi o d)) ->
  Le szero s -> Le s e -> Finite s -> Finite e -> real_of s <= t <= real_of e -> hitw lo hi o d t.
Proof.
  intros [a b D E [N1 H1] [N2 H2]|D I _ _|D _ _ M] C1 C2 S0 SE Fs Fe [L1 L2].
  - apply cov_num in C1, C2; try assumption.
    destruct (H1 s Fs) as (K1 & _). destruct (H2 e Fe) as (_ & _ & K2 & _). specialize (K1 C1). specialize (K2 C2).
    assert (Q1 : dn a <= t) by lra. assert (Q2 : t <= up b) by lra. clear -E Q1 Q2 D. unfold hitw, dn, up, slack in *.
    assert (AB : forall z, Rabs (z / real_of d) * Rabs (real_of d) = Rabs z) by (intros z; rewrite <- Rabs_mult; f_equal; field; assumption).
    assert (EE : forall z, z / real_of d * real_of d = z) by (intros z; field; assumption).
    destruct E as [(P & -> & ->)|(P & -> & ->)].
    + rewrite (Rabs_pos_eq (real_of d)) in * by lra.
      apply (Rmult_le_compat_r (real_of d)) in Q1; [|lra]. apply (Rmult_le_compat_r (real_of d)) in Q2; [|lra].
      rewrite Rmult_minus_distr_r, Rmult_plus_distr_r, EE in Q1. rewrite !Rmult_plus_distr_r, EE in Q2. rewrite !Rmult_assoc, AB in Q1, Q2. lra.
    + rewrite (Rabs_left (real_of d)) in * by lra.
      apply (Rmult_le_compat_r (- real_of d)) in Q1; [|lra]. apply (Rmult_le_compat_r (- real_of d)) in Q2; [|lra].
      rewrite Rmult_minus_distr_r, Rmult_plus_distr_r in Q1. rewrite !Rmult_plus_distr_r in Q2. rewrite <- !Ropp_mult_distr_r in Q1, Q2. rewrite EE in Q1, Q2.
      assert (X : forall z, 3 * u * Rabs (z / real_of d) * real_of d = - (3 * u * Rabs z)) by (intros z; rewrite <- (AB z); ring). rewrite X in Q1, Q2. lra.
  - unfold hitw. rewrite D, Rabs_R0. pose proof (u_pos (A:=A)) as [U1 _]. pose proof (Rabs_pos (real_of lo - real_of o)). pose proof (Rabs_pos (real_of hi - real_of o)). nra.
  - exfalso. destruct M as [M|M].
    + apply cov_num in C1; [|apply NoNaN_tx; rewrite M; discriminate]. exact (not_Le_pinf _ _ M Fs C1).
    + apply cov_num in C2; [|apply NoNaN_tx; rewrite M; discriminate]. refine (not_Le_ninf _ e M _ C2). eapply (Le_trans (num_OrdLaws A)); eassumption.
Qed.
(* what the start of a range promises about an exact parameter t, and the end *)
Definition below s (t : R) := forall v, Finite v -> (Le v s -> real_of v <= up t) /\ (Lt v s -> real_of v < up t).
Definition above e (t : R) := forall v, Finite v -> (Le e v -> dn t <= real_of v) /\ (Lt e v -> dn t < real_of v).
Lemma below_tx s s' t : tx s = tx s' -> below s t -> below s' t.
Proof. intros E H v Fv. specialize (H v Fv). unfold Lt in *. rewrite !Le_tx, !tx_lt in *. now rewrite <- E. Qed.
Lemma above_tx s s' t : tx s = tx s' -> above s t -> above s' t.
Proof. intros E H v Fv. specialize (H v Fv). unfold Lt in *. rewrite !Le_tx, !tx_lt in *. now rewrite <- E. Qed.
Lemma below_0 t : 0 <= t -> below szero t.
Proof.
  intros H v Fv. unfold Lt. rewrite !Le_tx, !tx_lt, tx_0, (Finite_real v Fv), xle_fin, xlt_fin. unfold up, slack. pose proof (u_pos (A:=A)). pose proof (t_pos (A:=A)). pose proof (Rabs_pos t).
  assert (0 <= 3 * u * Rabs t) by nra. split; intros; lra.
Qed.
Lemma above_inf t : above sinf t.
Proof. intros v Fv. unfold Lt. rewrite !Le_tx, !tx_lt, tx_inf, (Finite_real v Fv). split; discriminate. Qed.
(* a hit on this axis, or a ray inside a face plane *)
Lemma axis_hit lo hi o d (t : R) : axis lo hi o d -> hit1 lo hi o d t -> below (near lo hi o d) t /\ above (far lo hi o d) t \/
  real_of d = 0 /\ (real_of o = real_of lo \/ real_of o = real_of hi) /\ real_of lo <> real_of hi /\ (tx (near lo hi o d) = PInf \/ tx (far lo hi o d) = NInf).
Proof.
  intros [a b D E [N1 H1] [N2 H2]|D I M1 M2|D X Y M] H.
  - left. apply (hit1_move _ _ _ _ a b) in H; [|assumption]. destruct H as [Ha Hb]. apply up_le in Ha. apply dn_le in Hb. split; intros v Fv.
    + destruct (H1 v Fv) as (_ & _ & K1 & K2). split; intros Q; [specialize (K1 Q) | specialize (K2 Q)]; lra.
    + destruct (H2 v Fv) as (K1 & K2 & _). split; intros Q; [specialize (K1 Q) | specialize (K2 Q)]; lra.
  - left. split; intros v Fv; unfold Lt; rewrite !Le_tx, !tx_lt, (Finite_real v Fv); [destruct M1 as [-> | ->] | destruct M2 as [-> | ->]]; split; discriminate.
  - right. unfold hit1 in H. rewrite D in H. split; [assumption|]. split; [lra|]. split; [lra | assumption].
Qed.
(* the start of the range after some axes, the end likewise *)
Definition isup s (l : list (num A)) := Le szero s /\ (forall m, In m l -> cov m (Le m s)) /\ (tx s = Fin 0 \/ exists m, In m l /\ tx s = tx m).
Definition iinf e (l : list (num A)) := NoNaN e /\ (forall m, In m l -> cov m (Le e m)) /\ (tx e = PInf \/ exists m, In m l /\ tx e = tx m).
Lemma isup_0 : isup szero [].
Proof. split; [apply (Le_refl (num_OrdLaws A)), zero_NoNaN|]. split; [intros m []|]. left. apply tx_0. Qed.
Lemma iinf_0 : iinf sinf [].
Proof. split; [apply inf_num|]. split; [intros m []|]. left. apply tx_inf. Qed.
Lemma isup_step s m l : isup s l -> isup (s_max s m) (m :: l).
Proof.
  intros (H1 & H2 & H3). pose proof (Le_nan (num_OrdLaws A) _ _ H1) as [_ N]. pose proof (max_ge s m N) as G. split; [eapply (Le_trans (num_OrdLaws A)); eassumption|]. split.
  - intros x [<-|I]; [destruct (NoNaN_dec m) as [Nm|Nm]; [right; now apply (max_ub2 (num_OrdLaws A)) | now left]|]. destruct (H2 x I) as [K|K]; [now left | right; eapply (Le_trans (num_OrdLaws A)); eassumption].
  - destruct (NoNaN_dec m) as [Nm|Nm].
    + destruct (max_spec (num_OrdLaws A) s m N Nm) as [[-> _]|[-> _]]; [|right; exists m; split; [now left | reflexivity]].
      destruct H3 as [H3|(x & I & H3)]; [now left | right; exists x; split; [now right | assumption]].
    + rewrite max_nan by assumption. destruct H3 as [H3|(x & I & H3)]; [now left | right; exists x; split; [now right | assumption]].
Qed.
Lemma iinf_step e m l : iinf e l -> iinf (s_min e m) (m :: l).
Proof.
  intros (N & H2 & H3). pose proof (min_le e m N) as G. split; [now apply min_num|]. split.
  - intros x [<-|I]; [destruct (NoNaN_dec m) as [Nm|Nm]; [right; now apply (min_lb2 (num_OrdLaws A)) | now left]|]. destruct (H2 x I) as [K|K]; [now left | right; eapply (Le_trans (num_OrdLaws A)); eassumption].
  - destruct (NoNaN_dec m) as [Nm|Nm].
    + destruct (min_spec (num_OrdLaws A) e m N Nm) as [[-> _]|[-> _]]; [|right; exists m; split; [now left | reflexivity]].
      destruct H3 as [H3|(x & I & H3)]; [now left | right; exists x; split; [now right | assumption]].
    + rewrite min_nan by assumption. destruct H3 as [H3|(x & I & H3)]; [now left | right; exists x; split; [now right | assumption]].
Qed.
Lemma isup_below s l (t : R) : isup s l -> 0 <= t -> (forall m, In m l -> below m t) -> below s t.
Proof. intros (_ & _ & [H|(m & I & H)]) T K; [apply (below_tx szero); [now rewrite tx_0, H | now apply below_0] | apply (below_tx m); [now symmetry | now apply K]]. Qed.
Lemma iinf_above e l (t : R) : iinf e l -> (forall m, In m l -> above m t) -> above e t.
Proof. intros (_ & _ & [H|(m & I & H)]) K; [apply (above_tx sinf); [now rewrite tx_inf, H | apply above_inf] | apply (above_tx m); [now symmetry | now apply K]]. Qed.
Lemma below_fin s (t : R) : Finite s -> below s t -> real_of s <= t + slack A t.
Proof. intros F H. apply (H s F). apply (Le_refl (num_OrdLaws A)). apply NoNaN_tx. rewrite (Finite_real s F). discriminate. Qed.
Lemma above_fin s (t : R) : Finite s -> above s t -> t - slack A t <= real_of s.
Proof. intros F H. apply (H s F). apply (Le_refl (num_OrdLaws A)). apply NoNaN_tx. rewrite (Finite_real s F). discriminate. Qed.
Lemma miss_thin s e (t1 t2 : R) : slt e s = true -> below s t1 -> above e t2 -> t2 - slack A t2 < t1 + slack A t1.
Proof.
  intros H B C. fold (up t1). fold (dn t2). rewrite tx_lt in H.
  assert (Z : Finite (szero : num A)) by (apply Finite_tx; exists 0; apply tx_0). assert (Zr : real_of (szero : num A) = 0) by (apply real_of_tx, tx_0).
  destruct (tx e) as [a| | |] eqn:Ee; [|now destruct (tx s)| |now destruct (tx s)].
  - apply Finite_intro in Ee as [Fe Re]. destruct (C e Fe) as [C1 _]. destruct (B e Fe) as [_ B1].
    assert (L1 : Le e e) by (apply (Le_refl (num_OrdLaws A)), NoNaN_tx; rewrite (Finite_real e Fe); discriminate).
    assert (L2 : Lt e s) by (unfold Lt; rewrite tx_lt, (Finite_real e Fe), Re; exact H). specialize (C1 L1). specialize (B1 L2). lra.
  - destruct (C szero Z) as [_ C1]. rewrite Zr in C1. assert (L1 : Lt e szero) by (unfold Lt; rewrite tx_lt, Ee, tx_0; reflexivity). specialize (C1 L1).
    destruct (tx s) as [b| | |] eqn:Es; try discriminate.
    + apply Finite_intro in Es as [Fs Rs]. destruct (B s Fs) as [B1 _]. assert (L2 : Le s s) by (apply (Le_refl (num_OrdLaws A)), NoNaN_tx; rewrite (Finite_real s Fs); discriminate).
      specialize (B1 L2). destruct (C s Fs) as [_ C2]. assert (L3 : Lt e s) by (unfold Lt; rewrite tx_lt, Ee, (Finite_real s Fs); reflexivity). specialize (C2 L3). lra.
    + destruct (B szero Z) as [_ B1]. rewrite Zr in B1. assert (L2 : Lt szero s) by (unfold Lt; rewrite tx_lt, Es, tx_0; reflexivity). specialize (B1 L2). lra.
Qed.
End R.
Section R2.
Context {A : arith}.
Variables (b : BoundingBox2 (num A)) (r : Ray2 (num A)).
Notation nr d := (near (coord2 (bb2_min b) d) (coord2 (bb2_max b) d) (coord2 (r2_origin r) d) (vcoord2 (r2_direction r) d)).
Notation fr d := (far (coord2 (bb2_min b) d) (coord2 (bb2_max b) d) (coord2 (r2_origin r) d) (vcoord2 (r2_direction r) d)).
Lemma range_some2 (s e : num A) : bb2_intersect_ray b r = Some (s, e) -> Le s e /\ (exists l, isup s l /\ forall m, In m l <-> exists d, m = nr d) /\ (exists l, iinf e l /\ forall m, In m l <-> exists d, m = fr d).
Proof.
  rewrite ray2_unfold. cbv zeta. repeat (destruct slt; [discriminate|]). destruct sle eqn:L; [|discriminate]. intros H. injection H as <- <-. split; [exact L|]. split.
  - eexists. split; [repeat apply isup_step; apply isup_0|]. intros m. cbn [In]. split; [intros H; repeat destruct H as [<-|H]; try contradiction; ((exists D2X; reflexivity) || (exists D2Y; reflexivity)) | intros [[] ->]; tauto].
  - eexists. split; [repeat apply iinf_step; apply iinf_0|]. intros m. cbn [In]. split; [intros H; repeat destruct H as [<-|H]; try contradiction; ((exists D2X; reflexivity) || (exists D2Y; reflexivity)) | intros [[] ->]; tauto].
Qed.
Lemma range_none2 : bb2_intersect_ray b r = None -> exists s e, slt e s = true /\ (exists l, isup s l /\ forall m, In m l -> exists d, m = nr d) /\ (exists l, iinf e l /\ forall m, In m l -> exists d, m = fr d).
Proof.
  rewrite ray2_unfold. cbv zeta. intros H.
  repeat match type of H with (if slt ?e ?s then _ else _) = None => destruct (slt e s) eqn:?L; [clear H; exists s, e; split; [assumption|] | ] end.
  2: (match type of H with (if sle ?s ?e then _ else _) = None => destruct (sle s e) eqn:LL; [discriminate | clear H; exists s, e; split; [|]] end).
  2: (match goal with |- slt ?e ?s = true => assert (N1 : NoNaN e) by (repeat apply min_num; apply inf_num); assert (N2 : NoNaN s) by (repeat apply max_num; apply zero_NoNaN);
      rewrite (ol_lt _ (num_OrdLaws A)), LL, N1, N2; reflexivity end).
  all: (split; eexists; (split; [repeat apply isup_step; apply isup_0 || (repeat apply iinf_step; apply iinf_0)|]); intros m I; cbn [In] in I; repeat destruct I as [<-|I]; try contradiction; ((exists D2X; reflexivity) || (exists D2Y; reflexivity))).
Qed.
Hypothesis O : Ordered2 b.
Hypothesis F1 : VFinite2 (p2_sub (bb2_min b) (r2_origin r)).
Hypothesis F2 : VFinite2 (p2_sub (bb2_max b) (r2_origin r)).
Hypothesis F3 : VFinite2 (r2_direction r).
Lemma axes2 d : axis (coord2 (bb2_min b) d) (coord2 (bb2_max b) d) (coord2 (r2_origin r) d) (vcoord2 (r2_direction r) d).
Proof. apply axis_spec; [apply O | specialize (F1 d); destruct d; exact F1 | specialize (F2 d); destruct d; exact F2 | apply F3]. Qed.
End R2.
Section R3.
Context {A : arith}.
Variables (b : BoundingBox3 (num A)) (r : Ray3 (num A)).
Notation nr d := (near (coord3 (bb3_min b) d) (coord3 (bb3_max b) d) (coord3 (r3_origin r) d) (vcoord3 (r3_direction r) d)).
Notation fr d := (far (coord3 (bb3_min b) d) (coord3 (bb3_max b) d) (coord3 (r3_origin r) d) (vcoord3 (r3_direction r) d)).
Lemma range_some3 (s e : num A) : bb3_intersect_ray b r = Some (s, e) -> Le s e /\ (exists l, isup s l /\ forall m, In m l <-> exists d, m = nr d) /\ (exists l, iinf e l /\ forall m, In m l <-> exists d, m = fr d).
Proof.
  rewrite ray3_unfold. cbv zeta. repeat (destruct slt; [discriminate|]). destruct sle eqn:L; [|discriminate]. intros H. injection H as <- <-. split; [exact L|]. split.
  - eexists. split; [repeat apply isup_step; apply isup_0|]. intros m. cbn [In]. split; [intros H; repeat destruct H as [<-|H]; try contradiction; ((exists D3X; reflexivity) || (exists D3Y; reflexivity) || (exists D3Z; reflexivity)) | intros [[] ->]; tauto].
  - eexists. split; [repeat apply iinf_step; apply iinf_0|]. intros m. cbn [In]. split; [intros H; repeat destruct H as [<-|H]; try contradiction; ((exists D3X; reflexivity) || (exists D3Y; reflexivity) || (exists D3Z; reflexivity)) | intros [[] ->]; tauto].
Qed.
Lemma range_none3 : bb3_intersect_ray b r = None -> exists s e, slt e s = true /\ (exists l, isup s l /\ forall m, In m l -> exists d, m = nr d) /\ (exists l, iinf e l /\ forall m, In m l -> exists d, m = fr d).
Proof.
  rewrite ray3_unfold. cbv zeta. intros H.
  repeat match type of H with (if slt ?e ?s then _ else _) = None => destruct (slt e s) eqn:?L; [clear H; exists s, e; split; [assumption|] | ] end.
  3: (match type of H with (if sle ?s ?e then _ else _) = None => destruct (sle s e) eqn:LL; [discriminate | clear H; exists s, e; split; [|]] end).
  3: (match goal with |- slt ?e ?s = true => assert (N1 : NoNaN e) by (repeat apply min_num; apply inf_num); assert (N2 : NoNaN s) by (repeat apply max_num; apply zero_NoNaN);
      rewrite (ol_lt _ (num_OrdLaws A)), LL, N1, N2; reflexivity end).
  all: (split; eexists; (split; [repeat apply isup_step; apply isup_0 || (repeat apply iinf_step; apply iinf_0)|]); intros m I; cbn [In] in I; repeat destruct I as [<-|I]; try contradiction; ((exists D3X; reflexivity) || (exists D3Y; reflexivity) || (exists D3Z; reflexivity))).
Qed.
Hypothesis O : Ordered3 b.
Hypothesis F1 : VFinite3 (p3_sub (bb3_min b) (r3_origin r)).
Hypothesis F2 : VFinite3 (p3_sub (bb3_max b) (r3_origin r)).
Hypothesis F3 : VFinite3 (r3_direction r).
Lemma axes3 d : axis (coord3 (bb3_min b) d) (coord3 (bb3_max b) d) (coord3 (r3_origin r) d) (vcoord3 (r3_direction r) d).
Proof. apply axis_spec; [apply O | specialize (F1 d); destruct d; exact F1 | specialize (F2 d); destruct d; exact F2 | apply F3]. Qed.
End R3.
Lemma C72_range_covers_hits_2d_pf : forall (A : arith) (b : BoundingBox2 (num A)) (r : Ray2 (num A)) (s e : num A), Ordered2 b ->
  VFinite2 (p2_sub (bb2_min b) (r2_origin r)) -> VFinite2 (p2_sub (bb2_max b) (r2_origin r)) -> VFinite2 (r2_direction r) ->
  bb2_intersect_ray b r = Some (s, e) -> forall t, 0 <= t -> exact_hit2 b r t ->
  (Finite s -> real_of s <= t + slack A t) /\ (Finite e -> t - slack A t <= real_of e).
Proof.
  intros A b r s e O F1 F2 F3 H t T K. destruct (range_some2 b r s e H) as (L & (l & S & Sl) & (l' & E & El)).
  assert (G : Finite s -> forall d, below (near (coord2 (bb2_min b) d) (coord2 (bb2_max b) d) (coord2 (r2_origin r) d) (vcoord2 (r2_direction r) d)) t /\
      above (far (coord2 (bb2_min b) d) (coord2 (bb2_max b) d) (coord2 (r2_origin r) d) (vcoord2 (r2_direction r) d)) t).
  { intros Fs d. destruct (axis_hit _ _ _ _ t (axes2 b r O F1 F2 F3 d) (K d)) as [Q|(_ & _ & _ & M)]; [exact Q | exfalso].
    destruct S as (S0 & S1 & _). destruct E as (_ & E1 & _). destruct M as [M|M].
    - pose proof (S1 _ (proj2 (Sl _) (ex_intro _ d eq_refl))) as C. apply cov_num in C; [|apply NoNaN_tx; rewrite M; discriminate]. exact (not_Le_pinf _ _ M Fs C).
    - pose proof (E1 _ (proj2 (El _) (ex_intro _ d eq_refl))) as C. apply cov_num in C; [|apply NoNaN_tx; rewrite M; discriminate].
      refine (not_Le_ninf _ e M _ C). eapply (Le_trans (num_OrdLaws A)); eassumption. }
  split; intros F.
  - apply below_fin; [assumption|]. apply (isup_below _ _ _ S T). intros m I. apply Sl in I. destruct I as [d ->]. now apply G.
  - assert (Fs : Finite s). { apply Finite_tx. destruct S as (S0 & _). apply Le_tx in S0, L. rewrite tx_0 in S0. rewrite (Finite_real e F) in L. destruct (tx s); try discriminate. eauto. }
    apply above_fin; [assumption|]. apply (iinf_above _ _ _ E). intros m I. apply El in I. destruct I as [d ->]. now apply G.
Qed.
Lemma C72_range_covers_hits_3d_pf : forall (A : arith) (b : BoundingBox3 (num A)) (r : Ray3 (num A)) (s e : num A), Ordered3 b ->
  VFinite3 (p3_sub (bb3_min b) (r3_origin r)) -> VFinite3 (p3_sub (bb3_max b) (r3_origin r)) -> VFinite3 (r3_direction r) ->
  bb3_intersect_ray b r = Some (s, e) -> forall t, 0 <= t -> exact_hit3 b r t ->
  (Finite s -> real_of s <= t + slack A t) /\ (Finite e -> t - slack A t <= real_of e).
Proof.
  intros A b r s e O F1 F2 F3 H t T K. destruct (range_some3 b r s e H) as (L & (l & S & Sl) & (l' & E & El)).
  assert (G : Finite s -> forall d, below (near (coord3 (bb3_min b) d) (coord3 (bb3_max b) d) (coord3 (r3_origin r) d) (vcoord3 (r3_direction r) d)) t /\
      above (far (coord3 (bb3_min b) d) (coord3 (bb3_max b) d) (coord3 (r3_origin r) d) (vcoord3 (r3_direction r) d)) t).
  { intros Fs d. destruct (axis_hit _ _ _ _ t (axes3 b r O F1 F2 F3 d) (K d)) as [Q|(_ & _ & _ & M)]; [exact Q | exfalso].
    destruct S as (S0 & S1 & _). destruct E as (_ & E1 & _). destruct M as [M|M].
    - pose proof (S1 _ (proj2 (Sl _) (ex_intro _ d eq_refl))) as C. apply cov_num in C; [|apply NoNaN_tx; rewrite M; discriminate]. exact (not_Le_pinf _ _ M Fs C).
    - pose proof (E1 _ (proj2 (El _) (ex_intro _ d eq_refl))) as C. apply cov_num in C; [|apply NoNaN_tx; rewrite M; discriminate].
      refine (not_Le_ninf _ e M _ C). eapply (Le_trans (num_OrdLaws A)); eassumption. }
  split; intros F.
  - apply below_fin; [assumption|]. apply (isup_below _ _ _ S T). intros m I. apply Sl in I. destruct I as [d ->]. now apply G.
  - assert (Fs : Finite s). { apply Finite_tx. destruct S as (S0 & _). apply Le_tx in S0, L. rewrite tx_0 in S0. rewrite (Finite_real e F) in L. destruct (tx s); try discriminate. eauto. }
    apply above_fin; [assumption|]. apply (iinf_above _ _ _ E). intros m I. apply El in I. destruct I as [d ->]. now apply G.
Qed.
Lemma C72_range_interior_2d_pf : forall (A : arith) (b : BoundingBox2 (num A)) (r : Ray2 (num A)) (s e : num A), Ordered2 b ->
  VFinite2 (p2_sub (bb2_min b) (r2_origin r)) -> VFinite2 (p2_sub (bb2_max b) (r2_origin r)) -> VFinite2 (r2_direction r) ->
  bb2_intersect_ray b r = Some (s, e) -> Finite e -> forall t, real_of s <= t - slack A t -> t + slack A t <= real_of e -> exact_hit2 b r t.
Proof.
  intros A b r s e O F1 F2 F3 H F t T1 T2 d. destruct (range_some2 b r s e H) as (L & (l & (S0 & S1 & _) & Sl) & (l' & (_ & E1 & _) & El)).
  assert (Fs : Finite s). { apply Finite_tx. pose proof L as L'. apply Le_tx in S0, L'. rewrite tx_0 in S0. rewrite (Finite_real e F) in L'. destruct (tx s); try discriminate. eauto. }
  apply (axis_inner _ _ _ _ s e t (axes2 b r O F1 F2 F3 d)); try assumption; [apply S1, Sl | apply E1, El]; now exists d.
Qed.
Lemma C72_range_interior_3d_pf : forall (A : arith) (b : BoundingBox3 (num A)) (r : Ray3 (num A)) (s e : num A), Ordered3 b ->
  VFinite3 (p3_sub (bb3_min b) (r3_origin r)) -> VFinite3 (p3_sub (bb3_max b) (r3_origin r)) -> VFinite3 (r3_direction r) ->
  bb3_intersect_ray b r = Some (s, e) -> Finite e -> forall t, real_of s <= t - slack A t -> t + slack A t <= real_of e -> exact_hit3 b r t.
Proof.
  intros A b r s e O F1 F2 F3 H F t T1 T2 d. destruct (range_some3 b r s e H) as (L & (l & (S0 & S1 & _) & Sl) & (l' & (_ & E1 & _) & El)).
  assert (Fs : Finite s). { apply Finite_tx. pose proof L as L'. apply Le_tx in S0, L'. rewrite tx_0 in S0. rewrite (Finite_real e F) in L'. destruct (tx s); try discriminate. eauto. }
  apply (axis_inner _ _ _ _ s e t (axes3 b r O F1 F2 F3 d)); try assumption; [apply S1, Sl | apply E1, El]; now exists d.
Qed.
Lemma C72_range_near_box_2d_pf : forall (A : arith) (b : BoundingBox2 (num A)) (r : Ray2 (num A)) (s e : num A), Ordered2 b ->
  VFinite2 (p2_sub (bb2_min b) (r2_origin r)) -> VFinite2 (p2_sub (bb2_max b) (r2_origin r)) -> VFinite2 (r2_direction r) ->
  bb2_intersect_ray b r = Some (s, e) -> Finite e -> forall t, real_of s <= t <= real_of e ->
  exact_hit_within2 (fun face d => 3 * unit_roundoff A * Rabs (real_of face - real_of (coord2 (r2_origin r) d)) + min_subnormal A * Rabs (real_of (vcoord2 (r2_direction r) d))) b r t.
Proof.
  intros A b r s e O F1 F2 F3 H F t T d. destruct (range_some2 b r s e H) as (L & (l & (S0 & S1 & _) & Sl) & (l' & (_ & E1 & _) & El)).
  assert (Fs : Finite s). { apply Finite_tx. pose proof L as L'. apply Le_tx in S0, L'. rewrite tx_0 in S0. rewrite (Finite_real e F) in L'. destruct (tx s); try discriminate. eauto. }
  apply (axis_outer _ _ _ _ s e t (axes2 b r O F1 F2 F3 d)); try assumption; [apply S1, Sl | apply E1, El]; now exists d.
Qed.
Lemma C72_range_near_box_3d_pf : forall (A : arith) (b : BoundingBox3 (num A)) (r : Ray3 (num A)) (s e : num A), Ordered3 b ->
  VFinite3 (p3_sub (bb3_min b) (r3_origin r)) -> VFinite3 (p3_sub (bb3_max b) (r3_origin r)) -> VFinite3 (r3_direction r) ->
  bb3_intersect_ray b r = Some (s, e) -> Finite e -> forall t, real_of s <= t <= real_of e ->
  exact_hit_within3 (fun face d => 3 * unit_roundoff A * Rabs (real_of face - real_of (coord3 (r3_origin r) d)) + min_subnormal A * Rabs (real_of (vcoord3 (r3_direction r) d))) b r t.
Proof.
  intros A b r s e O F1 F2 F3 H F t T d. destruct (range_some3 b r s e H) as (L & (l & (S0 & S1 & _) & Sl) & (l' & (_ & E1 & _) & El)).
  assert (Fs : Finite s). { apply Finite_tx. pose proof L as L'. apply Le_tx in S0, L'. rewrite tx_0 in S0. rewrite (Finite_real e F) in L'. destruct (tx s); try discriminate. eauto. }
  apply (axis_outer _ _ _ _ s e t (axes3 b r O F1 F2 F3 d)); try assumption; [apply S1, Sl | apply E1, El]; now exists d.
Qed.
Lemma C72_miss_is_thin_2d_pf : forall (A : arith) (b : BoundingBox2 (num A)) (r : Ray2 (num A)), Ordered2 b ->
  VFinite2 (p2_sub (bb2_min b) (r2_origin r)) -> VFinite2 (p2_sub (bb2_max b) (r2_origin r)) -> VFinite2 (r2_direction r) ->
  (forall d, Eqs (vcoord2 (r2_direction r) d) szero ->
     Eqs (coord2 (r2_origin r) d) (coord2 (bb2_min b) d) \/ Eqs (coord2 (r2_origin r) d) (coord2 (bb2_max b) d) -> Eqs (coord2 (bb2_min b) d) (coord2 (bb2_max b) d)) ->
  bb2_intersect_ray b r = None -> forall t1 t2, 0 <= t1 -> exact_hit2 b r t1 -> exact_hit2 b r t2 ->
  t2 - slack A t2 < t1 + slack A t1.
Proof.
  intros A b r O F1 F2 F3 Z H t1 t2 T K1 K2. destruct (range_none2 b r H) as (s & e & L & (l & S & Sl) & (l' & E & El)).
  assert (G : forall d t, exact_hit2 b r t -> below (near (coord2 (bb2_min b) d) (coord2 (bb2_max b) d) (coord2 (r2_origin r) d) (vcoord2 (r2_direction r) d)) t /\
      above (far (coord2 (bb2_min b) d) (coord2 (bb2_max b) d) (coord2 (r2_origin r) d) (vcoord2 (r2_direction r) d)) t).
  { intros d t K. destruct (axis_hit _ _ _ _ t (axes2 b r O F1 F2 F3 d) (K d)) as [Q|(D & Q & N & _)]; [exact Q | exfalso].
    assert (EQ : forall x y : num A, Finite x -> Finite y -> (Eqs x y <-> real_of x = real_of y)).
    { intros x y Fx Fy. unfold Eqs. rewrite tx_eq, (Finite_real x Fx), (Finite_real y Fy). split; [intros Q'; apply xeq_eq in Q'; destruct Q' as [Q' _]; injection Q' as Q'; exact Q' | intros ->; unfold xeq; cbn [xle]; now rewrite !Rle_bool_true by lra]. }
    specialize (F1 d). specialize (F2 d). specialize (F3 d). specialize (Z d).
    assert (FF1 : Finite (ssub (coord2 (bb2_min b) d) (coord2 (r2_origin r) d))) by (destruct d; exact F1). assert (FF2 : Finite (ssub (coord2 (bb2_max b) d) (coord2 (r2_origin r) d))) by (destruct d; exact F2).
    destruct (err_sub _ _ FF1) as (Fl & Fo & _). destruct (err_sub _ _ FF2) as (Fh & _).
    assert (FZ : Finite (szero : num A)) by (apply Finite_tx; exists 0; apply tx_0). assert (Zr : real_of (szero : num A) = 0) by (apply real_of_tx, tx_0).
    rewrite !EQ, Zr in Z by assumption. tauto. }
  apply (miss_thin s e); [assumption | |].
  - apply (isup_below _ _ _ S T). intros m I. apply Sl in I. destruct I as [d ->]. now apply G.
  - apply (iinf_above _ _ _ E). intros m I. apply El in I. destruct I as [d ->]. now apply G.
Qed.
Lemma C72_miss_is_thin_3d_pf : forall (A : arith) (b : BoundingBox3 (num A)) (r : Ray3 (num A)), Ordered3 b ->
  VFinite3 (p3_sub (bb3_min b) (r3_origin r)) -> VFinite3 (p3_sub (bb3_max b) (r3_origin r)) -> VFinite3 (r3_direction r) ->
  (forall d, Eqs (vcoord3 (r3_direction r) d) szero ->
     Eqs (coord3 (r3_origin r) d) (coord3 (bb3_min b) d) \/ Eqs (coord3 (r3_origin r) d) (coord3 (bb3_max b) d) -> Eqs (coord3 (bb3_min b) d) (coord3 (bb3_max b) d)) ->
  bb3_intersect_ray b r = None -> forall t1 t2, 0 <= t1 -> exact_hit3 b r t1 -> exact_hit3 b r t2 ->
  t2 - slack A t2 < t1 + slack A t1.
Proof.
  intros A b r O F1 F2 F3 Z H t1 t2 T K1 K2. destruct (range_none3 b r H) as (s & e & L & (l & S & Sl) & (l' & E & El)).
  assert (G : forall d t, exact_hit3 b r t -> below (near (coord3 (bb3_min b) d) (coord3 (bb3_max b) d) (coord3 (r3_origin r) d) (vcoord3 (r3_direction r) d)) t /\
      above (far (coord3 (bb3_min b) d) (coord3 (bb3_max b) d) (coord3 (r3_origin r) d) (vcoord3 (r3_direction r) d)) t).
  { intros d t K. destruct (axis_hit _ _ _ _ t (axes3 b r O F1 F2 F3 d) (K d)) as [Q|(D & Q & N & _)]; [exact Q | exfalso].
    assert (EQ : forall x y : num A, Finite x -> Finite y -> (Eqs x y <-> real_of x = real_of y)).
    { intros x y Fx Fy. unfold Eqs. rewrite tx_eq, (Finite_real x Fx), (Finite_real y Fy). split; [intros Q'; apply xeq_eq in Q'; destruct Q' as [Q' _]; injection Q' as Q'; exact Q' | intros ->; unfold xeq; cbn [xle]; now rewrite !Rle_bool_true by lra]. }
    specialize (F1 d). specialize (F2 d). specialize (F3 d). specialize (Z d).
    assert (FF1 : Finite (ssub (coord3 (bb3_min b) d) (coord3 (r3_origin r) d))) by (destruct d; exact F1). assert (FF2 : Finite (ssub (coord3 (bb3_max b) d) (coord3 (r3_origin r) d))) by (destruct d; exact F2).
    destruct (err_sub _ _ FF1) as (Fl & Fo & _). destruct (err_sub _ _ FF2) as (Fh & _).
    assert (FZ : Finite (szero : num A)) by (apply Finite_tx; exists 0; apply tx_0). assert (Zr : real_of (szero : num A) = 0) by (apply real_of_tx, tx_0).
    rewrite !EQ, Zr in Z by assumption. tauto. }
  apply (miss_thin s e); [assumption | |].
  - apply (isup_below _ _ _ S T). intros m I. apply Sl in I. destruct I as [d ->]. now apply G.
  - apply (iinf_above _ _ _ E). intros m I. apply El in I. destruct I as [d ->]. now apply G.
Qed.
Lemma C72_entry_point_inside_refuted_2d_pf : let b : BoundingBox2 (num A64) := mkBB2 (mkPoint2 (d64 1 0) (nd64 1 0)) (mkPoint2 (d64 2 0) (d64 1 0)) in
  let r : Ray2 (num A64) := mkRay2 (mkPoint2 (d64 0 0) (d64 0 0)) (mkVector2 (d64 49 0) (d64 0 0)) in
  Ordered2 b /\ exists s e, bb2_intersect_ray b r = Some (s, e) /\ Finite s /\ Finite e /\ bb2_is_inside b (r2_at r s) = false.
Proof.
  cbv zeta. split; [intros []; vm_compute; reflexivity|]. eexists _, _. split; [lazy [bb2_intersect_ray]; reflexivity|]. split; [vm_compute; reflexivity|]. split; vm_compute; reflexivity.
Qed.
Lemma C72_touching_ray_hits_refuted_2d_pf : let b : BoundingBox2 (num A64) := mkBB2 (mkPoint2 (d64 7 0) (d64 0 0)) (mkPoint2 (d64 8 0) (d64 1 55)) in
  let r : Ray2 (num A64) := mkRay2 (mkPoint2 (d64 0 0) (nd64 19 0)) (mkVector2 (d64 1 0) (d64 5146971002709141 0)) in
  Ordered2 b /\ VFinite2 (p2_sub (bb2_min b) (r2_origin r)) /\ VFinite2 (p2_sub (bb2_max b) (r2_origin r)) /\ VFinite2 (r2_direction r) /\
  exact_hit2 b r 7 /\ bb2_intersect_ray b r = None.
Proof.
  cbv zeta. split; [intros []; vm_compute; reflexivity|]. split; [intros []; vm_compute; reflexivity|]. split; [intros []; vm_compute; reflexivity|]. split; [intros []; vm_compute; reflexivity|].
  split; [|vm_compute; reflexivity].
  assert (R : forall n, (Z.abs n < 2 ^ 53)%Z -> real_of (A := A64) (flit F64 n 0) = IZR n) by (intros n Hn; now apply (real_flit F64)).
  assert (Q : real_of (A := A64) (flit F64 1 55) = IZR (2 ^ 55)).
  { apply real_of_tx. assert (K := repr_pow F64 55 ltac:(lia)). replace (bpow radix2 55) with (F2R (Float radix2 1 55)) in K by (unfold F2R; cbn; lra).
    change (tx (flit F64 1 55 : num A64)) with (toX (flit F64 1 55)). rewrite flit_repr by apply K. f_equal. unfold F2R. cbn. lra. }
  intros []; cbn [coord2 vcoord2 bb2_min bb2_max p2x p2y r2_origin r2_direction v2x v2y]; unfold d64, nd64; rewrite ?Q, !R by (cbn; lia); cbn; lra.
Qed.
