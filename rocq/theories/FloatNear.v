(** Proofs: the nearest point of a box, nearest-neighbour search (C103, C104). *)
From Coq Require Import Bool NArith ZArith Reals List Lra Lia.
From Flocq Require Import Core.Zaux Core.Raux.
From Verif Require Import Scalar Types Vector2 Vector3 Point2 Point3 Ray BoundingBox2 BoundingBox3 Float
  XReal OrdLaws Arith SpecOrder SpecFloat SpecReal SpecNear OrderProofs OrderBox FloatX XArith FloatLaws SlabBase FloatRay FloatSym ExVals ErrBase ExactBase ExactVec FloatTrans FloatMono FloatClip FloatAxis.
Import ListNotations.
Local Open Scope R_scope.
Section A.
Context {A : arith}.
Implicit Types x y lo hi c : num A.
Let L := num_OrdLaws A.
Definition cl lo hi x : num A := s_max lo (s_min x hi).
Lemma cl_in lo hi x : Le lo hi -> Le lo (cl lo hi x) /\ Le (cl lo hi x) hi.
Proof.
  intros H. unfold cl. pose proof (Le_nan L _ _ H) as [N1 N2]. assert (K : NoNaN (s_min x hi) /\ Le (s_min x hi) hi).
  { destruct (NoNaN_dec x) as [Nx|Nx]; [split; [now apply (min_NoNaN L) | now apply (min_lb2 L)]|]. rewrite (proj1 (proj2 (proj2 (scalar_min_law L x hi))) Nx). split; [exact N2 | now apply (Le_refl L)]. }
  split; [now apply (max_ub1 L) | now apply (max_lub L)].
Qed.
Lemma cl_between lo hi x y : NoNaN x -> Le lo y -> Le y hi -> Le x (cl lo hi x) /\ Le (cl lo hi x) y \/ Le y (cl lo hi x) /\ Le (cl lo hi x) x.
Proof.
  intros Nx H1 H2. unfold cl. pose proof (Le_nan L _ _ H1) as [N1 Ny]. pose proof (Le_nan L _ _ H2) as [_ N2].
  destruct (min_spec L x hi Nx N2) as [[-> K]|[-> K]].
  - destruct (max_spec L lo x N1 Nx) as [[-> K']|[-> K']]; [left; now split|]. destruct (Le_total L x y Nx Ny) as [Q|Q]; [left | right]; (split; [|try exact Q]); try exact Q; now apply (Le_refl L).
  - destruct (max_spec L lo hi N1 N2) as [[-> K']|[-> K']]; right.
    + split; [exact (Le_trans L _ _ _ H2 K') | exact (Le_trans L _ _ _ (Le_trans L _ _ _ H1 H2) K)].
    + now split.
Qed.
Lemma cl_mono lo hi x y : Le lo hi -> Le x y -> Le (cl lo hi x) (cl lo hi y).
Proof.
  intros H K. pose proof (Le_nan L _ _ H) as [N1 N2]. pose proof (Le_nan L _ _ K) as [Nx Ny]. unfold cl. pose proof (min_NoNaN L _ _ Nx N2) as M1. pose proof (min_NoNaN L _ _ Ny N2) as M2.
  apply (max_lub L); [now apply (max_ub1 L)|]. apply (Le_trans L) with (s_min y hi); [|now apply (max_ub2 L)]. apply (min_glb L); [|now apply (min_lb2 L)]. apply (Le_trans L) with x; [now apply (min_lb1 L) | exact K].
Qed.
Lemma fin_between x y c : Finite x -> Finite y -> Le x c /\ Le c y \/ Le y c /\ Le c x -> Finite c.
Proof. rewrite !Finite_tx, !Le_tx. intros [rx ->] [ry ->] H. destruct (tx c) as [r| | |]; cbn in H; [now exists r | | |]; exfalso; destruct H as [[? ?]|[? ?]]; discriminate. Qed.
Lemma cl_contract lo hi c x y : Finite c -> Le lo c -> Le c hi -> Finite x -> Finite y -> Le (sabs (ssub (cl lo hi y) (cl lo hi x))) (sabs (ssub y x)).
Proof.
  intros Fc C1 C2 Fx Fy. pose proof (Le_trans L _ _ _ C1 C2) as H. pose proof (finite_NoNaN x Fx) as Nx. pose proof (finite_NoNaN y Fy) as Ny.
  assert (F1 : Finite (cl lo hi x)) by exact (fin_between x c _ Fx Fc (cl_between lo hi x c Nx C1 C2)).
  assert (F2 : Finite (cl lo hi y)) by exact (fin_between y c _ Fy Fc (cl_between lo hi y c Ny C1 C2)).
  destruct (cl_in lo hi x H) as [I1 I2]. destruct (cl_in lo hi y H) as [J1 J2].
  pose proof (cl_between lo hi x _ Nx J1 J2) as B1. pose proof (cl_between lo hi y _ Ny I1 I2) as B2.
  assert (M : (Le x y /\ Le (cl lo hi x) (cl lo hi y)) \/ (Le y x /\ Le (cl lo hi y) (cl lo hi x))) by (destruct (Le_total L x y Nx Ny) as [Q|Q]; [left | right]; (split; [exact Q | now apply cl_mono])).
  clear -F1 F2 B1 B2 M Fx Fy. revert B1 B2 M. generalize dependent (cl lo hi x). generalize dependent (cl lo hi y). intros b Fb a Fa. apply Finite_tx in Fx, Fy, Fa, Fb. destruct Fx as [rx Ex], Fy as [ry Ey], Fa as [ra Ea], Fb as [rb Eb].
  rewrite !Le_tx, !tx_abs, !tx_sub, Ex, Ey, Ea, Eb. rewrite !xle_fin. intros B1 B2 M. rewrite <- !xr_abs. apply xr_mono. cbn [xsub xneg xadd xabs]. apply xle_fin. unfold Rabs. destruct (Rcase_abs _), (Rcase_abs _); lra.
Qed.
Lemma cl_fix lo hi x : Le lo x -> Le x hi -> Eqs (cl lo hi x) x.
Proof. intros H1 H2. destruct (cl_between lo hi x x (Le_nan2 L _ _ H1) H1 H2) as [[K1 K2]|[K1 K2]]; apply (Eqs_iff L); now split. Qed.
Lemma cl_xv lo hi x : Le lo hi -> NoNaN x -> tx (cl lo hi x) = xmax (tx lo) (xmin (tx x) (tx hi)).
Proof. intros _ _. unfold cl. now rewrite tx_smax, tx_smin. Qed.
Lemma cl_clip la ha lb hb lc hc x : Le la ha -> Le lb hb -> Le la hb -> Le lb ha -> tx lc = xmax (tx la) (tx lb) -> tx hc = xmin (tx ha) (tx hb) -> NoNaN x -> Eqs (cl lc hc x) (cl la ha (cl lb hb x)).
Proof.
  intros H1 H2 H3 H4 E1 E2 Nx. pose proof (Le_nan L _ _ H1) as [Na Na']. pose proof (Le_nan L _ _ H2) as [Nb Nb'].
  assert (T : forall z, Le (cl lc hc x) z <-> Le (cl la ha (cl lb hb x)) z).
  { intros z. assert (W : forall lo hi y, NoNaN lo -> NoNaN hi -> NoNaN y -> (xle (xmax (tx lo) (xmin (tx y) (tx hi))) (tx z) = true <-> xle (tx lo) (tx z) = true /\ (xle (tx y) (tx z) = true \/ xle (tx hi) (tx z) = true))).
    { intros lo hi y Nl Nh Ny. rewrite xmax_le. rewrite <- tx_smin. rewrite <- !Le_tx. rewrite (min_le_iff L) by assumption. reflexivity. now rewrite <- tx_nan. rewrite <- tx_smin, <- tx_nan. now apply (min_NoNaN L). }
    rewrite !Le_tx. unfold cl. rewrite !tx_smax, !tx_smin, !tx_smax, !tx_smin, E1, E2. rewrite <- tx_smax, <- (tx_smin ha hb).
    rewrite (W (s_max la lb) (s_min ha hb) x) by first [now apply (max_NoNaN L) | now apply (min_NoNaN L) | assumption]. rewrite <- (tx_smin x hb), <- (tx_smax lb (s_min x hb)).
    rewrite (W la ha (s_max lb (s_min x hb))) by first [assumption | apply (max_NoNaN L); [assumption|]; now apply (min_NoNaN L)].
    rewrite <- !Le_tx, !(max_le_iff L), !(min_le_iff L) by first [assumption | now apply (min_NoNaN L)].
    assert (Le ha z -> Le lb z) by (apply (Le_trans L); exact H4). assert (Le hb z -> Le la z) by (apply (Le_trans L); exact H3). assert (Le hb z -> Le lb z) by (apply (Le_trans L); exact H2). tauto. }
  apply (Eqs_iff L). assert (N1 : NoNaN (cl la ha (cl lb hb x))) by exact (Le_nan1 L _ _ (proj2 (cl_in la ha (cl lb hb x) H1))).
  assert (N2 : NoNaN (cl lc hc x)) by (apply (Le_nan1 L _ (cl la ha (cl lb hb x))), T; now apply (Le_refl L)). split; apply T; now apply (Le_refl L).
Qed.
End A.
Lemma pick2 (P : Point2 xreal) (Q : Dimension2 -> R -> Prop) : (forall d, exists c, coord2 P d = Fin c /\ Q d c) -> exists c : Point2 R, P = XP2 c /\ forall d, Q d (coord2 c d).
Proof. intros H. destruct (H D2X) as (x & Ex & Qx), (H D2Y) as (y & Ey & Qy). exists (mkPoint2 x y). split; [destruct P; cbn in *; now subst | intros []; assumption]. Qed.
Lemma pick3 (P : Point3 xreal) (Q : Dimension3 -> R -> Prop) : (forall d, exists c, coord3 P d = Fin c /\ Q d c) -> exists c : Point3 R, P = XP3 c /\ forall d, Q d (coord3 c d).
Proof. intros H. destruct (H D3X) as (x & Ex & Qx), (H D3Y) as (y & Ey & Qy), (H D3Z) as (z & Ez & Qz). exists (mkPoint3 x y z). split; [destruct P; cbn in *; now subst | intros []; assumption]. Qed.
Lemma sq_near (x y z : R) : x <= y <= z \/ z <= y <= x -> (x - y) ^ 2 <= (x - z) ^ 2 /\ ((x - z) ^ 2 <= (x - y) ^ 2 -> y = z).
Proof.
  intros W. split; [destruct W; nra|]. intros V. destruct W as [W|W].
  - assert (H : z - x <= y - x); [|lra]. apply Rsqr_incr_0_var; [unfold Rsqr; nra | lra].
  - assert (H : x - z <= x - y); [|lra]. apply Rsqr_incr_0_var; [unfold Rsqr; nra | lra].
Qed.
Lemma near_uni2 (p c q : Point2 R) : (forall d, coord2 p d <= coord2 c d <= coord2 q d \/ coord2 q d <= coord2 c d <= coord2 p d) -> Rdist2 p q = Rdist2 p c -> c = q.
Proof.
  intros K H. pose proof (K D2X) as Kx. pose proof (K D2Y) as Ky. destruct p as [a1 a2], c as [b1 b2], q as [c1 c2]. unfold Rdist2 in H. cbn [coord2 p2x p2y] in *. apply sqrt_inj in H; [|apply Rplus_le_le_0_compat; apply pow2_ge_0 | apply Rplus_le_le_0_compat; apply pow2_ge_0].
  apply sq_near in Kx, Ky. destruct Kx as [X1 X2], Ky as [Y1 Y2]. rewrite X2, Y2 by lra. reflexivity.
Qed.
Lemma near_uni3 (p c q : Point3 R) : (forall d, coord3 p d <= coord3 c d <= coord3 q d \/ coord3 q d <= coord3 c d <= coord3 p d) -> Rdist3 p q = Rdist3 p c -> c = q.
Proof.
  intros K H. pose proof (K D3X) as Kx. pose proof (K D3Y) as Ky. pose proof (K D3Z) as Kz. destruct p as [a1 a2 a3], c as [b1 b2 b3], q as [c1 c2 c3]. unfold Rdist3 in H. cbn [coord3 p3x p3y p3z] in *. apply sqrt_inj in H; [|repeat apply Rplus_le_le_0_compat; apply pow2_ge_0 | repeat apply Rplus_le_le_0_compat; apply pow2_ge_0].
  apply sq_near in Kx, Ky, Kz. destruct Kx as [X1 X2], Ky as [Y1 Y2], Kz as [Z1 Z2]. rewrite X2, Y2, Z2 by lra. reflexivity.
Qed.
Lemma clamp2_coord {A : arith} (b : BoundingBox2 (num A)) p d : coord2 (clamp2 b p) d = cl (coord2 (bb2_min b) d) (coord2 (bb2_max b) d) (coord2 p d).
Proof. destruct d; reflexivity. Qed.
Lemma clamp3_coord {A : arith} (b : BoundingBox3 (num A)) p d : coord3 (clamp3 b p) d = cl (coord3 (bb3_min b) d) (coord3 (bb3_max b) d) (coord3 p d).
Proof. destruct d; reflexivity. Qed.
Lemma C103_clamp_inside_2d_pf : forall (A : arith) (b : BoundingBox2 (num A)) (p : Point2 (num A)), Ordered2 b -> bb2_is_inside b (clamp2 b p) = true.
Proof.
  intros A b p O. apply bb2_is_inside_iff. split; intros d; rewrite clamp2_coord; now apply cl_in.
Qed.
Lemma C103_clamp_inside_3d_pf : forall (A : arith) (b : BoundingBox3 (num A)) (p : Point3 (num A)), Ordered3 b -> bb3_is_inside b (clamp3 b p) = true.
Proof.
  intros A b p O. apply bb3_is_inside_iff. split; intros d; rewrite clamp3_coord; now apply cl_in.
Qed.
Lemma C103_clamp_fixes_2d_pf : forall (A : arith) (b : BoundingBox2 (num A)) (p : Point2 (num A)), Ordered2 b -> (PEq2 (clamp2 b p) p <-> bb2_is_inside b p = true).
Proof.
  intros A b p O. pose proof (num_OrdLaws A) as L. rewrite bb2_is_inside_iff. split.
  - intros H. split; intros d; specialize (H d); rewrite clamp2_coord in H; apply (Eqs_iff L) in H; destruct H as [H1 H2]; destruct (cl_in _ _ (coord2 p d) (O d)) as [K1 K2]; [exact (Le_trans L _ _ _ K1 H1) | exact (Le_trans L _ _ _ H2 K2)].
  - intros [H1 H2] d. rewrite clamp2_coord. apply cl_fix; [apply H1 | apply H2].
Qed.
Lemma C103_clamp_fixes_3d_pf : forall (A : arith) (b : BoundingBox3 (num A)) (p : Point3 (num A)), Ordered3 b -> (PEq3 (clamp3 b p) p <-> bb3_is_inside b p = true).
Proof.
  intros A b p O. pose proof (num_OrdLaws A) as L. rewrite bb3_is_inside_iff. split.
  - intros H. split; intros d; specialize (H d); rewrite clamp3_coord in H; apply (Eqs_iff L) in H; destruct H as [H1 H2]; destruct (cl_in _ _ (coord3 p d) (O d)) as [K1 K2]; [exact (Le_trans L _ _ _ K1 H1) | exact (Le_trans L _ _ _ H2 K2)].
  - intros [H1 H2] d. rewrite clamp3_coord. apply cl_fix; [apply H1 | apply H2].
Qed.
Lemma C103_clamp_is_nearest_2d_pf : forall (A : arith) (b : BoundingBox2 (num A)) (p q : Point2 (num A)), Finite2 p -> bb2_is_inside b q = true ->
  Le (p2_distance p (clamp2 b p)) (p2_distance p q) /\ p2_is_closer_to p q (clamp2 b p) = false /\ p2_is_farther_from p (clamp2 b p) q = false.
Proof.
  intros A b p q F I. apply bb2_is_inside_iff in I. destruct I as [I1 I2]. apply C70_distance_monotone_2d_pf; [exact F|]. intros d. rewrite clamp2_coord.
  apply cl_between; [exact (finite_NoNaN _ (F d)) | apply I1 | apply I2].
Qed.
Lemma C103_clamp_is_nearest_3d_pf : forall (A : arith) (b : BoundingBox3 (num A)) (p q : Point3 (num A)), Finite3 p -> bb3_is_inside b q = true ->
  Le (p3_distance p (clamp3 b p)) (p3_distance p q) /\ p3_is_closer_to p q (clamp3 b p) = false /\ p3_is_farther_from p (clamp3 b p) q = false.
Proof.
  intros A b p q F I. apply bb3_is_inside_iff in I. destruct I as [I1 I2]. apply C70_distance_monotone_3d_pf; [exact F|]. intros d. rewrite clamp3_coord.
  apply cl_between; [exact (finite_NoNaN _ (F d)) | apply I1 | apply I2].
Qed.
Lemma C103_nearest_is_unique_2d_pf : forall (b : BoundingBox2 R) (p q : Point2 R), bb2_is_inside (XB2 b) (XP2 q) = true ->
  p2_distance (XP2 p) (XP2 q) = p2_distance (XP2 p) (clamp2 (XB2 b) (XP2 p)) -> clamp2 (XB2 b) (XP2 p) = XP2 q.
Proof.
  intros b p q I. apply bb2_is_inside_iff in I. destruct I as [I1 I2].
  assert (K : forall d, exists c : R, coord2 (clamp2 (XB2 b) (XP2 p)) d = Fin c /\ (coord2 p d <= c <= coord2 q d \/ coord2 q d <= c <= coord2 p d)).
  { intros d. set (C := coord2 (clamp2 (XB2 b) (XP2 p)) d).
    assert (B : xle (Fin (coord2 p d)) C = true /\ xle C (Fin (coord2 q d)) = true \/ xle (Fin (coord2 q d)) C = true /\ xle C (Fin (coord2 p d)) = true).
    { pose proof (I1 d) as J1. pose proof (I2 d) as J2. destruct d; exact (cl_between (A:=EXACT) _ _ (Fin (coord2 p _) : num EXACT) _ (eq_refl false) J1 J2). }
    destruct C as [c| | |]; [|exfalso; cbn in B; destruct B as [[? ?]|[? ?]]; discriminate ..].
    exists c. split; [reflexivity|]. rewrite !xle_fin in B. exact B. }
  apply pick2 in K. destruct K as (c & E & K). rewrite E. rewrite !C27_distance_value_2d_pf. intros H. apply Fin_inj in H. now rewrite (near_uni2 p c q K H).
Qed.
Lemma C103_nearest_is_unique_3d_pf : forall (b : BoundingBox3 R) (p q : Point3 R), bb3_is_inside (XB3 b) (XP3 q) = true ->
  p3_distance (XP3 p) (XP3 q) = p3_distance (XP3 p) (clamp3 (XB3 b) (XP3 p)) -> clamp3 (XB3 b) (XP3 p) = XP3 q.
Proof.
  intros b p q I. apply bb3_is_inside_iff in I. destruct I as [I1 I2].
  assert (K : forall d, exists c : R, coord3 (clamp3 (XB3 b) (XP3 p)) d = Fin c /\ (coord3 p d <= c <= coord3 q d \/ coord3 q d <= c <= coord3 p d)).
  { intros d. set (C := coord3 (clamp3 (XB3 b) (XP3 p)) d).
    assert (B : xle (Fin (coord3 p d)) C = true /\ xle C (Fin (coord3 q d)) = true \/ xle (Fin (coord3 q d)) C = true /\ xle C (Fin (coord3 p d)) = true).
    { pose proof (I1 d) as J1. pose proof (I2 d) as J2. destruct d; exact (cl_between (A:=EXACT) _ _ (Fin (coord3 p _) : num EXACT) _ (eq_refl false) J1 J2). }
    destruct C as [c| | |]; [|exfalso; cbn in B; destruct B as [[? ?]|[? ?]]; discriminate ..].
    exists c. split; [reflexivity|]. rewrite !xle_fin in B. exact B. }
  apply pick3 in K. destruct K as (c & E & K). rewrite E. rewrite !C27_distance_value_3d_pf. intros H. apply Fin_inj in H. now rewrite (near_uni3 p c q K H).
Qed.
Lemma C103_clamp_contracts_2d_pf : forall (A : arith) (b : BoundingBox2 (num A)) (c p q : Point2 (num A)), Finite2 c -> bb2_is_inside b c = true -> Finite2 p -> Finite2 q ->
  Le (p2_distance (clamp2 b p) (clamp2 b q)) (p2_distance p q).
Proof.
  intros A b c p q Fc I Fp Fq. apply bb2_is_inside_iff in I. destruct I as [I1 I2]. unfold p2_distance. apply C70_length_monotone_2d_pf. intros d.
  assert (E : forall x y : Point2 (num A), vcoord2 (p2_sub x y) d = ssub (coord2 x d) (coord2 y d)) by (intros x y; destruct d; reflexivity). rewrite !E, !clamp2_coord.
  apply cl_contract with (coord2 c d); [apply Fc | apply I1 | apply I2 | apply Fp | apply Fq].
Qed.
Lemma C103_clamp_contracts_3d_pf : forall (A : arith) (b : BoundingBox3 (num A)) (c p q : Point3 (num A)), Finite3 c -> bb3_is_inside b c = true -> Finite3 p -> Finite3 q ->
  Le (p3_distance (clamp3 b p) (clamp3 b q)) (p3_distance p q).
Proof.
  intros A b c p q Fc I Fp Fq. apply bb3_is_inside_iff in I. destruct I as [I1 I2]. unfold p3_distance. apply C70_length_monotone_3d_pf. intros d.
  assert (E : forall x y : Point3 (num A), vcoord3 (p3_sub x y) d = ssub (coord3 x d) (coord3 y d)) by (intros x y; destruct d; reflexivity). rewrite !E, !clamp3_coord.
  apply cl_contract with (coord3 c d); [apply Fc | apply I1 | apply I2 | apply Fp | apply Fq].
Qed.
Lemma C103_clamp_to_intersection_2d_pf : forall (A : arith) (a b c : BoundingBox2 (num A)) (p : Point2 (num A)), Ordered2 a -> Ordered2 b -> bb2_intersect a b = Some c -> NoNaN2 p ->
  PEq2 (clamp2 c p) (clamp2 a (clamp2 b p)).
Proof.
  intros A a b c p Oa Ob I N d. rewrite !clamp2_coord. destruct (clip_coord2 a b c Oa Ob I d) as (L1 & L2 & E1 & E2). apply cl_clip; try assumption; [apply Oa | apply Ob | apply N].
Qed.
Lemma C103_clamp_to_intersection_3d_pf : forall (A : arith) (a b c : BoundingBox3 (num A)) (p : Point3 (num A)), Ordered3 a -> Ordered3 b -> bb3_intersect a b = Some c -> NoNaN3 p ->
  PEq3 (clamp3 c p) (clamp3 a (clamp3 b p)).
Proof.
  intros A a b c p Oa Ob I N d. rewrite !clamp3_coord. destruct (clip_coord3 a b c Oa Ob I d) as (L1 & L2 & E1 & E2). apply cl_clip; try assumption; [apply Oa | apply Ob | apply N].
Qed.
Section N2.
Context {A : arith}.
Notation L := (num_OrdLaws A).
Definition D2 (q x : Point2 (num A)) : num A := v2_dot (p2_sub x q) (p2_sub x q).
Lemma D2_nn q x : Finite2 q -> NoNaN2 x -> Le szero (D2 q x).
Proof.
  intros F N. apply (dot2_mono _ (p2_sub x q)). intros d. apply Le_tx. rewrite tx_abs. apply xle_rfl.
  assert (E : vcoord2 (p2_sub x q) d = ssub (coord2 x d) (coord2 q d)) by (destruct d; reflexivity). rewrite E. rewrite tx_sub. pose proof (F d) as Fd. apply Finite_tx in Fd. destruct Fd as [r ->]. pose proof (N d) as Nd. apply NoNaN_tx in Nd.
  destruct (tx (coord2 x d)) as [y| | |]; try congruence; cbn [xsub xneg xadd]; rewrite ?xr_pinf, ?xr_ninf; try reflexivity.
  pose proof (xr_nan (A:=A) (Fin (y + - r))) as Q. destruct (xr A (Fin (y + - r))); cbn in *; congruence.
Qed.
Lemma D2_num q x : Finite2 q -> NoNaN2 x -> NoNaN (D2 q x).
Proof. intros F N. exact (Le_nan2 L _ _ (D2_nn q x F N)). Qed.
Lemma ptree2_ok (t : ptree2 (num A)) : Forall NoNaN2 (points2 t) -> Ordered2 (pbounds2 t) /\ forall p, In p (points2 t) -> In2 p (pbounds2 t).
Proof.
  induction t as [p|l IHl r IHr]; cbn [points2 pbounds2]; intros H.
  - inversion H as [|? ? Np _]; subst. split; [now apply (bb2_new_ordered L)|]. intros x [<-|[]]. now apply (bb2_new_in L).
  - apply Forall_app in H. destruct H as [Hl Hr]. destruct (IHl Hl) as [Ol Il], (IHr Hr) as [Or Ir]. split; [now apply (bb2_union_ordered L)|].
    intros x I. apply in_app_iff in I. destruct I as [I|I]; [apply (bb2_union_l L _ _ Ol Or); now apply Il | apply (bb2_union_r L _ _ Ol Or); now apply Ir].
Qed.
Lemma nn2_inv (q : Point2 (num A)) : Finite2 q -> forall t best, Forall NoNaN2 (points2 t) -> NoNaN2 best ->
  (nn2 q t best = best \/ In (nn2 q t best) (points2 t)) /\ (forall x, x = best \/ In x (points2 t) -> Le (D2 q (nn2 q t best)) (D2 q x)).
Proof.
  intros F. induction t as [p|l IHl r IHr]; intros best H N.
  - cbn [nn2 points2] in *. inversion H as [|? ? Np _]; subst. unfold p2_closest. pose proof (D2_num q p F Np) as N1. pose proof (D2_num q best F N) as N2. destruct (p2_is_closer_to q p best) eqn:E.
    + split; [right; now left|]. change (Lt (D2 q p) (D2 q best)) in E. intros x [->|[<-|[]]]; [now apply (Lt_Le L) | now apply (Le_refl L)].
    + split; [now left|]. change (slt (D2 q p) (D2 q best) = false) in E. intros x [->|[<-|[]]]; [now apply (Le_refl L) | now apply (not_Lt_Le L)].
  - destruct (ptree2_ok (PNode2 l r) H) as [O I]. cbn [nn2]. destruct (p2_is_closer_to q (clamp2 (pbounds2 (PNode2 l r)) q) best) eqn:E.
    + cbn [points2] in *. apply Forall_app in H. destruct H as [Hl Hr]. destruct (IHl best Hl N) as [L1 L2].
      assert (N1 : NoNaN2 (nn2 q l best)) by (destruct L1 as [->|L1]; [exact N | rewrite Forall_forall in Hl; now apply Hl]).
      destruct (IHr (nn2 q l best) Hr N1) as [R1 R2]. split.
      * destruct R1 as [->|R1]; [destruct L1 as [L1|L1]; [now left|]|]; right; apply in_app_iff; tauto.
      * intros x [->|K]; [|apply in_app_iff in K; destruct K as [K|K]; [|apply R2; now right]]; (apply (Le_trans L) with (D2 q (nn2 q l best)); [apply R2; now left | apply L2; tauto]).
    + split; [now left|]. pose proof (D2_num q best F N) as Nb. intros x [->|K]; [now apply (Le_refl L)|].
      pose proof (I x K) as Ix. assert (Nc : NoNaN2 (clamp2 (pbounds2 (PNode2 l r)) q)) by (intros d; rewrite clamp2_coord; exact (Le_nan1 L _ _ (proj2 (cl_in _ _ (coord2 q d) (O d))))).
      pose proof (D2_num q _ F Nc) as Nc'. apply (Le_trans L) with (D2 q (clamp2 (pbounds2 (PNode2 l r)) q)); [now apply (not_Lt_Le L)|].
      apply dot2_mono. intros d. assert (E' : forall y : Point2 (num A), vcoord2 (p2_sub y q) d = ssub (coord2 y d) (coord2 q d)) by (intros y; destruct d; reflexivity). rewrite !E', clamp2_coord.
      apply absdiff_toward; [apply F|]. apply cl_between; [exact (finite_NoNaN _ (F d)) | apply Ix | apply Ix].
Qed.
End N2.
Section N3.
Context {A : arith}.
Notation L := (num_OrdLaws A).
Definition D3 (q x : Point3 (num A)) : num A := v3_dot (p3_sub x q) (p3_sub x q).
Lemma D3_nn q x : Finite3 q -> NoNaN3 x -> Le szero (D3 q x).
Proof.
  intros F N. apply (dot3_mono _ (p3_sub x q)). intros d. apply Le_tx. rewrite tx_abs. apply xle_rfl.
  assert (E : vcoord3 (p3_sub x q) d = ssub (coord3 x d) (coord3 q d)) by (destruct d; reflexivity). rewrite E. rewrite tx_sub. pose proof (F d) as Fd. apply Finite_tx in Fd. destruct Fd as [r ->]. pose proof (N d) as Nd. apply NoNaN_tx in Nd.
  destruct (tx (coord3 x d)) as [y| | |]; try congruence; cbn [xsub xneg xadd]; rewrite ?xr_pinf, ?xr_ninf; try reflexivity.
  pose proof (xr_nan (A:=A) (Fin (y + - r))) as Q. destruct (xr A (Fin (y + - r))); cbn in *; congruence.
Qed.
Lemma D3_num q x : Finite3 q -> NoNaN3 x -> NoNaN (D3 q x).
Proof. intros F N. exact (Le_nan2 L _ _ (D3_nn q x F N)). Qed.
Lemma ptree3_ok (t : ptree3 (num A)) : Forall NoNaN3 (points3 t) -> Ordered3 (pbounds3 t) /\ forall p, In p (points3 t) -> In3 p (pbounds3 t).
Proof.
  induction t as [p|l IHl r IHr]; cbn [points3 pbounds3]; intros H.
  - inversion H as [|? ? Np _]; subst. split; [now apply (bb3_new_ordered L)|]. intros x [<-|[]]. now apply (bb3_new_in L).
  - apply Forall_app in H. destruct H as [Hl Hr]. destruct (IHl Hl) as [Ol Il], (IHr Hr) as [Or Ir]. split; [now apply (bb3_union_ordered L)|].
    intros x I. apply in_app_iff in I. destruct I as [I|I]; [apply (bb3_union_l L _ _ Ol Or); now apply Il | apply (bb3_union_r L _ _ Ol Or); now apply Ir].
Qed.
Lemma nn3_inv (q : Point3 (num A)) : Finite3 q -> forall t best, Forall NoNaN3 (points3 t) -> NoNaN3 best ->
  (nn3 q t best = best \/ In (nn3 q t best) (points3 t)) /\ (forall x, x = best \/ In x (points3 t) -> Le (D3 q (nn3 q t best)) (D3 q x)).
Proof.
  intros F. induction t as [p|l IHl r IHr]; intros best H N.
  - cbn [nn3 points3] in *. inversion H as [|? ? Np _]; subst. unfold p3_closest. pose proof (D3_num q p F Np) as N1. pose proof (D3_num q best F N) as N2. destruct (p3_is_closer_to q p best) eqn:E.
    + split; [right; now left|]. change (Lt (D3 q p) (D3 q best)) in E. intros x [->|[<-|[]]]; [now apply (Lt_Le L) | now apply (Le_refl L)].
    + split; [now left|]. change (slt (D3 q p) (D3 q best) = false) in E. intros x [->|[<-|[]]]; [now apply (Le_refl L) | now apply (not_Lt_Le L)].
  - destruct (ptree3_ok (PNode3 l r) H) as [O I]. cbn [nn3]. destruct (p3_is_closer_to q (clamp3 (pbounds3 (PNode3 l r)) q) best) eqn:E.
    + cbn [points3] in *. apply Forall_app in H. destruct H as [Hl Hr]. destruct (IHl best Hl N) as [L1 L2].
      assert (N1 : NoNaN3 (nn3 q l best)) by (destruct L1 as [->|L1]; [exact N | rewrite Forall_forall in Hl; now apply Hl]).
      destruct (IHr (nn3 q l best) Hr N1) as [R1 R2]. split.
      * destruct R1 as [->|R1]; [destruct L1 as [L1|L1]; [now left|]|]; right; apply in_app_iff; tauto.
      * intros x [->|K]; [|apply in_app_iff in K; destruct K as [K|K]; [|apply R2; now right]]; (apply (Le_trans L) with (D3 q (nn3 q l best)); [apply R2; now left | apply L2; tauto]).
    + split; [now left|]. pose proof (D3_num q best F N) as Nb. intros x [->|K]; [now apply (Le_refl L)|].
      pose proof (I x K) as Ix. assert (Nc : NoNaN3 (clamp3 (pbounds3 (PNode3 l r)) q)) by (intros d; rewrite clamp3_coord; exact (Le_nan1 L _ _ (proj2 (cl_in _ _ (coord3 q d) (O d))))).
      pose proof (D3_num q _ F Nc) as Nc'. apply (Le_trans L) with (D3 q (clamp3 (pbounds3 (PNode3 l r)) q)); [now apply (not_Lt_Le L)|].
      apply dot3_mono. intros d. assert (E' : forall y : Point3 (num A), vcoord3 (p3_sub y q) d = ssub (coord3 y d) (coord3 q d)) by (intros y; destruct d; reflexivity). rewrite !E', clamp3_coord.
      apply absdiff_toward; [apply F|]. apply cl_between; [exact (finite_NoNaN _ (F d)) | apply Ix | apply Ix].
Qed.
End N3.
Lemma C104_nearest_neighbour_2d_pf : forall (A : arith) (t : ptree2 (num A)) (q best : Point2 (num A)), Finite2 q -> Forall NoNaN2 (points2 t) -> NoNaN2 best ->
  let m := nn2 q t best in (m = best \/ In m (points2 t)) /\
  forall x, x = best \/ In x (points2 t) -> Le (p2_distance q m) (p2_distance q x) /\ p2_is_closer_to q x m = false.
Proof.
  intros A t q best F H N. cbv zeta. destruct (nn2_inv q F t best H N) as [K1 K2]. split; [exact K1|]. intros x X. pose proof (K2 x X) as K. split; [|now apply not_lt_le]. apply sqrt_mono; [|exact K]. apply D2_nn; [exact F|]. destruct K1 as [->|K1]; [exact N | rewrite Forall_forall in H; now apply H].
Qed.
Lemma C104_nearest_neighbour_3d_pf : forall (A : arith) (t : ptree3 (num A)) (q best : Point3 (num A)), Finite3 q -> Forall NoNaN3 (points3 t) -> NoNaN3 best ->
  let m := nn3 q t best in (m = best \/ In m (points3 t)) /\
  forall x, x = best \/ In x (points3 t) -> Le (p3_distance q m) (p3_distance q x) /\ p3_is_closer_to q x m = false.
Proof.
  intros A t q best F H N. cbv zeta. destruct (nn3_inv q F t best H N) as [K1 K2]. split; [exact K1|]. intros x X. pose proof (K2 x X) as K. split; [|now apply not_lt_le]. apply sqrt_mono; [|exact K]. apply D3_nn; [exact F|]. destruct K1 as [->|K1]; [exact N | rewrite Forall_forall in H; now apply H].
Qed.
