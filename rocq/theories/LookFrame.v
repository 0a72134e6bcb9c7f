(** Proof device for C80: the camera frame of look_at in floating point, and the exact inverse of its matrix. *)
From Coq Require Import Bool NArith ZArith Reals List Lra Lia.
From Flocq Require Import Core.Zaux Core.Raux Core.Defs Core.Generic_fmt Core.FLT IEEE754.BinarySingleNaN.
From Verif Require Import Scalar Types Vector2 Vector3 Point2 Point3 Ray BoundingBox2 BoundingBox3 Transform2 Transform3 Float
  XReal OrdLaws Arith SpecOrder SpecStruct SpecFloat SpecReal SpecErr SpecRot SpecInv SpecTrans SpecLook Adj4 ExactBase ExactMat FloatX XArith FloatLaws FloatTrans ErrBase FloatErr FloatInv
  FloatTri FloatRot FloatInvAcc LookReal ExVals.
Import ListNotations.
Local Open Scope R_scope.
Section L.
Context {A : arith}.
Notation u := (unit_roundoff A).
Notation t := (min_subnormal A).
Lemma t_u8 : t <= u / 1000000 /\ 0 <= t /\ 0 <= u <= / 16777216.
Proof. pose proof (u_pos (A:=A)). pose proof (t_pos (A:=A)). pose proof (t_le_uuu (A:=A)). split; [|tauto]. assert (u * u * u <= u * / 16777216). { rewrite Rmult_assoc. apply Rmult_le_compat_l; [lra|]. nra. } lra. Qed.
Lemma Rnorm3_sq' (v : Vector3 R) : v3x v * v3x v + v3y v * v3y v + v3z v * v3z v = Rnorm3 v * Rnorm3 v /\ 0 <= Rnorm3 v.
Proof. destruct (Rnorm3_sq v) as (N & _ & _ & _). unfold Rdot3 in N. split; [exact N | apply sqrt_pos]. Qed.
(* normalize *)
Lemma unit_facts (v : Vector3 (num A)) : LenOk v -> let n := RV3 (v3_normalize v) in let L := Rnorm3 (RV3 v) in
  VFinite3 (v3_normalize v) /\ Rabs (v3x n * v3x n + v3y n * v3y n + v3z n * v3z n - 1) <= 17 * u /\ 0 < L /\
  (forall d, Rabs (vcoord3 n d - vcoord3 (RV3 v) d / L) <= 7 * u * Rabs (vcoord3 (RV3 v) d / L) + t) /\ (forall d, Rabs (vcoord3 (RV3 v) d / L) <= 1).
Proof.
  intros (F & T & P) n L. destruct (C24_normalize_accurate_3d_pf A v F T P) as (Fn & C & N). fold n in C, N. fold L in C.
  split; [assumption|]. split; [|split; [assumption | split; [exact C|]]].
  - destruct (Rnorm3_sq' n) as [-> N0]. pose proof t_u8 as (_ & _ & U). apply Rabs_le_inv in N. apply Rabs_le. split; nra.
  - intros d. unfold Rdiv. rewrite Rabs_mult, Rabs_inv, (Rabs_pos_eq L) by (unfold L; lra). apply Rmult_le_reg_r with L; [exact P|]. rewrite Rmult_assoc, Rinv_l, Rmult_1_r, Rmult_1_l by (unfold L; lra). apply comp_le_norm3.
Qed.
(* cross product of nearly unit vectors *)
Lemma Nr_self (x : num A) : Finite x -> Nr x (real_of x) 0.
Proof. intros F. split; [assumption|]. rewrite Rminus_diag_eq, Rabs_R0 by reflexivity. lra. Qed.
Lemma diff2_finite (a b c d : num A) : Finite a -> Finite b -> Finite c -> Finite d -> Rabs (real_of a) <= 11 / 10 -> Rabs (real_of b) <= 11 / 10 -> Rabs (real_of c) <= 11 / 10 -> Rabs (real_of d) <= 11 / 10 ->
  Finite (ssub (smul a b) (smul c d)).
Proof.
  intros Fa Fb Fc Fd Ba Bb Bc Bd. pose proof t_u8 as (T & T0 & U).
  pose proof (Nr_mul a b _ _ 0 0 (11/10) (11/10) (11/10) (Nr_self a Fa) (Nr_self b Fb) Ba Bb Ba ltac:(lra)) as M1.
  pose proof (Nr_mul c d _ _ 0 0 (11/10) (11/10) (11/10) (Nr_self c Fc) (Nr_self d Fd) Bc Bd Bc ltac:(lra)) as M2.
  assert (K : forall x y z, Rabs x <= 11/10 -> Rabs y <= 11/10 -> Rabs (z - x * y) <= 0 * (11 / 10) + 11 / 10 * 0 + u * (11 / 10 * (11 / 10)) + t / 2 -> Rabs z <= 2).
  { intros x y z X Y Z. replace z with ((z - x * y) + x * y) by ring. eapply Rle_trans; [apply Rabs_triang|]. rewrite Rabs_mult.
    assert (Rabs x * Rabs y <= 11/10 * (11/10)) by (apply Rmult_le_compat; try apply Rabs_pos; assumption). lra. }
  refine (proj1 (Nr_sub _ _ _ _ _ _ 2 2 M1 M2 _ _ _)); [exact (K _ _ _ Ba Bb (proj2 M1)) | exact (K _ _ _ Bc Bd (proj2 M2)) | lra].
Qed.
Lemma comp_small (v : Vector3 R) (B : R) : v3x v * v3x v + v3y v * v3y v + v3z v * v3z v <= B * B -> 0 <= B -> Rabs (v3x v) <= B /\ Rabs (v3y v) <= B /\ Rabs (v3z v) <= B.
Proof.
  intros H HB. pose proof (Rle_0_sqr (v3x v)). pose proof (Rle_0_sqr (v3y v)). pose proof (Rle_0_sqr (v3z v)). unfold Rsqr in *. repeat split; apply sq_abs; lra.
Qed.
Definition rx (a b : Vector3 R) : Vector3 R := mkVector3 (v3y a * v3z b - v3z a * v3y b) (v3z a * v3x b - v3x a * v3z b) (v3x a * v3y b - v3y a * v3x b).
Definition rd (a b : Vector3 R) : R := v3x a * v3x b + v3y a * v3y b + v3z a * v3z b.
Lemma cross_facts (a b : Vector3 (num A)) : VFinite3 a -> VFinite3 b -> Rabs (rd (RV3 a) (RV3 a) - 1) <= 17 * u -> Rabs (rd (RV3 b) (RV3 b) - 1) <= 17 * u ->
  VFinite3 (v3_cross a b) /\ (forall d, Rabs (vcoord3 (RV3 (v3_cross a b)) d - vcoord3 (rx (RV3 a) (RV3 b)) d) <= 17 / 8 * u).
Proof.
  intros Fa Fb Na Nb. pose proof t_u8 as (T & T0 & U). unfold rd in *. apply Rabs_le_inv in Na, Nb.
  assert (Sa : v3x (RV3 a) * v3x (RV3 a) + v3y (RV3 a) * v3y (RV3 a) + v3z (RV3 a) * v3z (RV3 a) <= 101 / 100 * (101 / 100)) by lra.
  assert (Sb : v3x (RV3 b) * v3x (RV3 b) + v3y (RV3 b) * v3y (RV3 b) + v3z (RV3 b) * v3z (RV3 b) <= 101 / 100 * (101 / 100)) by lra.
  destruct (comp_small (RV3 a) _ Sa ltac:(lra)) as (A1 & A2 & A3). destruct (comp_small (RV3 b) _ Sb ltac:(lra)) as (B1 & B2 & B3).
  pose proof (Fa D3X) as FA1. pose proof (Fa D3Y) as FA2. pose proof (Fa D3Z) as FA3. pose proof (Fb D3X) as FB1. pose proof (Fb D3Y) as FB2. pose proof (Fb D3Z) as FB3.
  cbn [vcoord3] in *. change (v3x (RV3 a)) with (real_of (v3x a)) in *. change (v3y (RV3 a)) with (real_of (v3y a)) in *. change (v3z (RV3 a)) with (real_of (v3z a)) in *.
  change (v3x (RV3 b)) with (real_of (v3x b)) in *. change (v3y (RV3 b)) with (real_of (v3y b)) in *. change (v3z (RV3 b)) with (real_of (v3z b)) in *.
  assert (F : VFinite3 (v3_cross a b)) by (intros []; unfold v3_cross, v3_new; cbn [vcoord3 v3x v3y v3z]; apply diff2_finite; first [assumption | lra]).
  split; [exact F|]. intros d. pose proof (C59_cross_accurate_pf A a b d (F d)) as C. cbv zeta in C.
  pose proof (Rle_0_sqr (real_of (v3x a))). pose proof (Rle_0_sqr (real_of (v3y a))). pose proof (Rle_0_sqr (real_of (v3z a))).
  pose proof (Rle_0_sqr (real_of (v3x b))). pose proof (Rle_0_sqr (real_of (v3y b))). pose proof (Rle_0_sqr (real_of (v3z b))). unfold Rsqr in *.
  assert (G : forall q, 0 <= q <= 10001 / 10000 * (10001 / 10000) -> ((1 + u) ^ 2 - 1) * q + 2 * t <= 17 / 8 * u).
  { intros q Q. replace ((1 + u) ^ 2 - 1) with (2 * u + u * u) by ring. nra. }
  assert (Q : forall x y z w, x * x + y * y <= 10001 / 10000 * (10001 / 10000) -> z * z + w * w <= 10001 / 10000 * (10001 / 10000) -> 0 <= Rabs x * Rabs w + Rabs y * Rabs z <= 10001 / 10000 * (10001 / 10000)).
  { intros x y z w X Y. split; [|apply cs2; lra]. apply Rplus_le_le_0_compat; apply Rmult_le_pos; apply Rabs_pos. }
  destruct d; cbn [vcoord3 rx v3x v3y v3z RV3] in C |- *; (eapply Rle_trans; [exact C|]; apply G; apply Q; lra).
Qed.
Lemma norm_le1 (v : Vector3 R) : Rabs (rd v v - 1) <= 17 * u -> rd v v <= 100001 / 100000 * (100001 / 100000) /\ Rsum3 v <= 7 / 4 * (100001 / 100000).
Proof. intros H. pose proof t_u8 as (_ & _ & U). apply Rabs_le_inv in H. unfold rd in *. split; [lra|]. unfold Rsum3. apply sum_abs; lra. Qed.
(* right: the normalized cross product of two nearly unit vectors is nearly perpendicular to both *)
Lemma right_facts (a d : Vector3 (num A)) : VFinite3 a -> VFinite3 d -> Rabs (rd (RV3 a) (RV3 a) - 1) <= 17 * u -> Rabs (rd (RV3 d) (RV3 d) - 1) <= 17 * u ->
  let c := v3_cross a d in LenOk c -> let r := RV3 (v3_normalize c) in let s := Rnorm3 (RV3 c) in
  VFinite3 (v3_normalize c) /\ Rabs (rd r r - 1) <= 17 * u /\ 0 < s <= 1001 / 1000 /\
  Rabs (rd (RV3 d) r) <= 17 * u / s /\ Rabs (rd (RV3 a) r) <= 17 * u / s /\ s - 8 * u * s <= rd r (RV3 c).
Proof.
  intros Fa Fd Na Nd c Hc r s. pose proof t_u8 as (T & T0 & U). destruct (cross_facts a d Fa Fd Na Nd) as [Fc Ec]. fold c in Fc, Ec.
  destruct (unit_facts c Hc) as (Fr & Nr' & S0 & Cr & Ub). fold r in Nr', Cr. fold s in S0, Cr, Ub.
  destruct (norm_le1 _ Na) as [Sa Ta]. destruct (norm_le1 _ Nd) as [Sd Td].
  assert (Sc : rd (RV3 c) (RV3 c) = s * s) by (apply Rnorm3_sq').
  assert (EC : forall y : Vector3 R, Rsum3 y <= 7 / 4 * (100001 / 100000) -> Rabs (rd (RV3 c) y - rd (rx (RV3 a) (RV3 d)) y) <= 4 * u).
  { intros y Y. pose proof (sum_err _ _ _ (v3x y) (v3y y) (v3z y) _ (Ec D3X) (Ec D3Y) (Ec D3Z)) as E. cbn [vcoord3] in E. unfold rd.
    match goal with |- Rabs ?e <= _ => replace e with ((v3x (RV3 c) - v3x (rx (RV3 a) (RV3 d))) * v3x y + (v3y (RV3 c) - v3y (rx (RV3 a) (RV3 d))) * v3y y + (v3z (RV3 c) - v3z (rx (RV3 a) (RV3 d))) * v3z y) by ring end.
    eapply Rle_trans; [exact E|]. fold (Rsum3 y). assert (17 / 8 * u * Rsum3 y <= 17 / 8 * u * (7 / 4 * (100001 / 100000))) by (apply Rmult_le_compat_l; lra). lra. }
  assert (S1 : s <= 1001 / 1000).
  { (* s^2 = c.(a x d) + c.err <= s (|a x d| + 4u) *)
    pose proof (sum_err _ _ _ (v3x (RV3 c)) (v3y (RV3 c)) (v3z (RV3 c)) _ (Ec D3X) (Ec D3Y) (Ec D3Z)) as E. cbn [vcoord3] in E.
    pose proof (sum_abs _ _ _ s (Rlt_le _ _ S0) (Req_le _ _ Sc)) as SS. 
    assert (X : Rabs (rd (rx (RV3 a) (RV3 d)) (RV3 c)) <= 10001 / 10000 * s).
    { unfold rd. apply cs3; [lra | lra | | exact (Req_le _ _ Sc)]. unfold rx. cbn [v3x v3y v3z]. rewrite lagrange. unfold rd in Sa, Sd.
      pose proof (Rle_0_sqr (v3x (RV3 a) * v3x (RV3 d) + v3y (RV3 a) * v3y (RV3 d) + v3z (RV3 a) * v3z (RV3 d))) as P. unfold Rsqr in P.
      apply Rabs_le_inv in Na, Nd. unfold rd in Na, Nd. nra. }
    assert (W : s * s <= s * (1001 / 1000)).
    { rewrite <- Sc. assert (17 / 8 * u * (Rabs (v3x (RV3 c)) + Rabs (v3y (RV3 c)) + Rabs (v3z (RV3 c))) <= 17 / 8 * u * (7 / 4 * s)) by (apply Rmult_le_compat_l; lra).
      assert (17 / 8 * u * (7 / 4 * s) <= / 10000 * s) by (replace (17 / 8 * u * (7 / 4 * s)) with (119 / 32 * u * s) by field; apply Rmult_le_compat_r; lra).
      apply Rabs_le_inv in X, E. unfold rd in *. lra. }
    apply Rmult_le_reg_l with s; assumption. }
  assert (Us : u <= 1001 / 1000 * (u / s)). { replace (1001 / 1000 * (u / s)) with (u * (1001 / 1000 * / s)) by (unfold Rdiv; ring). rewrite <- (Rmult_1_r u) at 1. apply Rmult_le_compat_l; [lra|].
    apply Rmult_le_reg_r with s; [lra|]. rewrite Rmult_assoc, Rinv_l by lra. lra. }
  assert (PERP : forall y : Vector3 R, rd (rx (RV3 a) (RV3 d)) y = 0 -> Rsum3 y <= 7 / 4 * (100001 / 100000) -> Rabs (rd y r) <= 17 * u / s).
  { intros y O Y. pose proof (EC y Y) as E1. rewrite O, Rminus_0_r in E1.
    assert (E2 : forall d, Rabs (vcoord3 r d - vcoord3 (RV3 c) d / s) <= 7001 / 1000 * u).
    { intros k. eapply Rle_trans; [apply Cr|]. pose proof (Ub k). assert (7 * u * Rabs (vcoord3 (RV3 c) k / s) <= 7 * u * 1) by (apply Rmult_le_compat_l; lra). lra. }
    pose proof (sum_err _ _ _ (v3x y) (v3y y) (v3z y) _ (E2 D3X) (E2 D3Y) (E2 D3Z)) as E3. cbn [vcoord3] in E3. fold (Rsum3 y) in E3.
    assert (E4 : 7001 / 1000 * u * Rsum3 y <= 125 / 10 * u). { assert (7001 / 1000 * u * Rsum3 y <= 7001 / 1000 * u * (7 / 4 * (100001 / 100000))) by (apply Rmult_le_compat_l; lra). lra. }
    replace (rd y r) with (((v3x r - v3x (RV3 c) / s) * v3x y + (v3y r - v3y (RV3 c) / s) * v3y y + (v3z r - v3z (RV3 c) / s) * v3z y) + rd (RV3 c) y / s) by (unfold rd; field; lra).
    eapply Rle_trans; [apply Rabs_triang|].
    assert (Rabs (rd (RV3 c) y / s) <= 4 * (u / s)). { unfold Rdiv. rewrite Rabs_mult, Rabs_inv, (Rabs_pos_eq s) by lra. rewrite <- Rmult_assoc. apply Rmult_le_compat_r; [left; apply Rinv_0_lt_compat; lra | assumption]. }
    replace (17 * u / s) with (17 * (u / s)) by (unfold Rdiv; ring). lra. }
  split; [assumption|]. split; [exact Nr'|]. split; [split; assumption|].
  split; [apply PERP; [unfold rd, rx; cbn [v3x v3y v3z]; ring | assumption]|]. split; [apply PERP; [unfold rd, rx; cbn [v3x v3y v3z]; ring | assumption]|].
  assert (E2 : forall d, vcoord3 (RV3 c) d * vcoord3 (RV3 c) d / s * (1 - 7 * u) - t * s <= vcoord3 r d * vcoord3 (RV3 c) d).
  { intros k. pose proof (Cr k) as E. pose proof (Ub k) as B. set (x := vcoord3 (RV3 c) k) in *. set (y := vcoord3 r k) in *.
    assert (K : Rabs ((y - x / s) * x) <= (7 * u * Rabs (x / s) + t) * Rabs x) by (rewrite Rabs_mult; apply Rmult_le_compat_r; [apply Rabs_pos | exact E]).
    assert (XX : Rabs (x / s) * Rabs x = x * x / s). { rewrite <- Rabs_mult. replace (x / s * x) with (x * x / s) by (field; lra). apply Rabs_pos_eq. apply Rmult_le_pos; [apply Rle_0_sqr | left; apply Rinv_0_lt_compat; lra]. }
    assert (BX : Rabs x <= s). { unfold Rdiv in B. rewrite Rabs_mult, Rabs_inv, (Rabs_pos_eq s) in B by lra. apply Rmult_le_reg_r with (/ s); [apply Rinv_0_lt_compat; lra|]. rewrite Rinv_r by lra. exact B. }
    assert (TX : t * Rabs x <= t * s) by (apply Rmult_le_compat_l; assumption).
    apply Rabs_le_inv in K. replace ((y - x / s) * x) with (y * x - x * x / s) in K by (field; lra). replace ((7 * u * Rabs (x / s) + t) * Rabs x) with (7 * u * (Rabs (x / s) * Rabs x) + t * Rabs x) in K by ring. rewrite XX in K. lra. }
  pose proof (E2 D3X) as X1. pose proof (E2 D3Y) as X2. pose proof (E2 D3Z) as X3. cbn [vcoord3] in X1, X2, X3. unfold rd.
  assert (SQ : (v3x (RV3 c) * v3x (RV3 c) / s + v3y (RV3 c) * v3y (RV3 c) / s + v3z (RV3 c) * v3z (RV3 c) / s) = s). { unfold rd in Sc. replace (v3x (RV3 c) * v3x (RV3 c) / s + v3y (RV3 c) * v3y (RV3 c) / s + v3z (RV3 c) * v3z (RV3 c) / s) with ((v3x (RV3 c) * v3x (RV3 c) + v3y (RV3 c) * v3y (RV3 c) + v3z (RV3 c) * v3z (RV3 c)) / s) by (field; lra). rewrite Sc. field. lra. }
  assert (t * s <= u / 1000000 * s) by (apply Rmult_le_compat_r; lra). assert (0 <= u * s) by (apply Rmult_le_pos; lra). assert (s * (1 - 7 * u) - 3 * (t * s) <= v3x r * v3x (RV3 c) + v3y r * v3y (RV3 c) + v3z r * v3z (RV3 c)); [|lra].
  rewrite <- SQ at 1. lra.
Qed.
End L.
(* part 2 *)
Section M.
Context (u k r1 r2 r3 n1 n2 n3 d1 d2 d3 f1 f2 f3 : R).
Context (U : 0 <= u <= / 16777216).
Context (K : k <= 17 / 1024).
Context (H : FrameOk u k r1 r2 r3 n1 n2 n3 d1 d2 d3).
Definition LM : Matrix4x4 R := mkM4 r1 n1 d1 f1 r2 n2 d2 f2 r3 n3 d3 f3 0 0 0 1.
Definition LD : R := r1 * (n2 * d3 - n3 * d2) - n1 * (r2 * d3 - r3 * d2) + d1 * (r2 * n3 - r3 * n2).
Definition FS : R := Rabs f1 + Rabs f2 + Rabs f3.
Lemma lm_det : mat_det 4 (ent4 LM) = LD.
Proof using. clear. unfold LM, LD. mred. ring. Qed.
Lemma lm_D : 99 / 100 <= LD <= 10001 / 10000.
Proof using U K H. exact (fr_det u k r1 r2 r3 n1 n2 n3 d1 d2 d3 U K H). Qed.
Lemma p2 x y : Rabs x <= 1001 / 1000 -> Rabs y <= 1001 / 1000 -> 0 <= Rabs x * Rabs y <= 1001 / 1000 * (1001 / 1000).
Proof using. clear. intros X Y. split; [apply Rmult_le_pos; apply Rabs_pos | apply Rmult_le_compat; try apply Rabs_pos; assumption]. Qed.
Lemma p3 x y z : Rabs x <= 1001 / 1000 -> Rabs y <= 1001 / 1000 -> Rabs z <= 1001 / 1000 -> Rabs x * Rabs y * Rabs z <= 1004 / 1000.
Proof using. clear. intros X Y Z. pose proof (p2 x y X Y). assert (Rabs x * Rabs y * Rabs z <= 1001 / 1000 * (1001 / 1000) * (1001 / 1000)) by (apply Rmult_le_compat; try apply Rabs_pos; lra). lra. Qed.
Lemma p2f x y f : Rabs x <= 1001 / 1000 -> Rabs y <= 1001 / 1000 -> Rabs x * Rabs y * Rabs f <= 1001 / 1000 * (1001 / 1000) * Rabs f.
Proof using. clear. intros X Y. pose proof (p2 x y X Y). apply Rmult_le_compat_r; [apply Rabs_pos | lra]. Qed.
Lemma lm_perm : mat_perm 4 (mat_abs (ent4 LM)) <= 6024 / 1000.
Proof using U K H.
  destruct (fr_ent u k r1 r2 r3 n1 n2 n3 d1 d2 d3 U K H) as ((A1 & A2 & A3) & (B1 & B2 & B3) & (C1 & C2 & C3)).
  assert (E : mat_perm 4 (mat_abs (ent4 LM)) = Rabs r1 * Rabs n2 * Rabs d3 + Rabs r1 * Rabs n3 * Rabs d2 + Rabs n1 * Rabs r2 * Rabs d3 + Rabs n1 * Rabs r3 * Rabs d2 + Rabs d1 * Rabs r2 * Rabs n3 + Rabs d1 * Rabs r3 * Rabs n2).
  { unfold LM. cbv [pred mat_perm mat_abs mat_minor mat_del sum_n ent4 nth Nat.ltb Nat.leb Nat.mul Nat.add m4_0 m4_1 m4_2 m4_3 m4_4 m4_5 m4_6 m4_7 m4_8 m4_9 m4_10 m4_11 m4_12 m4_13 m4_14 m4_15]. rewrite Rabs_R0, Rabs_R1. ring. }
  rewrite E. pose proof (p3 r1 n2 d3 A1 B2 C3). pose proof (p3 r1 n3 d2 A1 B3 C2). pose proof (p3 n1 r2 d3 B1 A2 C3). pose proof (p3 n1 r3 d2 B1 A3 C2). pose proof (p3 d1 r2 n3 C1 A2 B3). pose proof (p3 d1 r3 n2 C1 A3 B2). lra.
Qed.
Lemma lm_cof_lin r c : (r < 3)%nat -> (c < 3)%nat -> cof_size 4 (ent4 LM) r c <= 2005 / 1000.
Proof using U K H.
  destruct (fr_ent u k r1 r2 r3 n1 n2 n3 d1 d2 d3 U K H) as ((A1 & A2 & A3) & (B1 & B2 & B3) & (C1 & C2 & C3)).
  intros Hr Hc. assert (r = 0 \/ r = 1 \/ r = 2)%nat as Kr by lia. assert (c = 0 \/ c = 1 \/ c = 2)%nat as Kc by lia.
  assert (X : forall a b x y e, Rabs a <= 1001 / 1000 -> Rabs b <= 1001 / 1000 -> Rabs x <= 1001 / 1000 -> Rabs y <= 1001 / 1000 -> e = Rabs a * Rabs b + Rabs x * Rabs y -> e <= 2005 / 1000).
  { intros a b x y e Ha Hb Hx Hy ->. pose proof (p2 a b Ha Hb). pose proof (p2 x y Hx Hy). lra. }
  destruct Kr as [->|[->| ->]], Kc as [->|[->| ->]]; unfold cof_size, LM; cbv [pred mat_perm mat_abs mat_minor mat_del sum_n ent4 nth Nat.ltb Nat.leb Nat.mul Nat.add m4_0 m4_1 m4_2 m4_3 m4_4 m4_5 m4_6 m4_7 m4_8 m4_9 m4_10 m4_11 m4_12 m4_13 m4_14 m4_15]; rewrite Rabs_R0, Rabs_R1.
  - apply (X n2 d3 n3 d2); try assumption; ring.
  - apply (X n1 d3 n3 d1); try assumption; ring.
  - apply (X n1 d2 n2 d1); try assumption; ring.
  - apply (X r2 d3 r3 d2); try assumption; ring.
  - apply (X r1 d3 r3 d1); try assumption; ring.
  - apply (X r1 d2 r2 d1); try assumption; ring.
  - apply (X r2 n3 r3 n2); try assumption; ring.
  - apply (X r1 n3 r3 n1); try assumption; ring.
  - apply (X r1 n2 r2 n1); try assumption; ring.
Qed.
Lemma lm_cof_tr r : (r < 3)%nat -> cof_size 4 (ent4 LM) r 3 <= 2005 / 1000 * FS.
Proof using U K H.
  destruct (fr_ent u k r1 r2 r3 n1 n2 n3 d1 d2 d3 U K H) as ((A1 & A2 & A3) & (B1 & B2 & B3) & (C1 & C2 & C3)).
  intros Hr. assert (r = 0 \/ r = 1 \/ r = 2)%nat as Kr by lia. pose proof (Rabs_pos f1). pose proof (Rabs_pos f2). pose proof (Rabs_pos f3).
  assert (X : forall a1 a2 a3 b1 b2 b3 e, Rabs a1 <= 1001 / 1000 -> Rabs a2 <= 1001 / 1000 -> Rabs a3 <= 1001 / 1000 -> Rabs b1 <= 1001 / 1000 -> Rabs b2 <= 1001 / 1000 -> Rabs b3 <= 1001 / 1000 ->
    e = Rabs a2 * Rabs b3 * Rabs f1 + Rabs a3 * Rabs b2 * Rabs f1 + Rabs a1 * Rabs b3 * Rabs f2 + Rabs a3 * Rabs b1 * Rabs f2 + Rabs a1 * Rabs b2 * Rabs f3 + Rabs a2 * Rabs b1 * Rabs f3 -> e <= 2005 / 1000 * FS).
  { intros a1 a2 a3 b1 b2 b3 e X1 X2 X3 Y1 Y2 Y3 ->. pose proof (p2f a2 b3 f1 X2 Y3). pose proof (p2f a3 b2 f1 X3 Y2). pose proof (p2f a1 b3 f2 X1 Y3). pose proof (p2f a3 b1 f2 X3 Y1). pose proof (p2f a1 b2 f3 X1 Y2). pose proof (p2f a2 b1 f3 X2 Y1). unfold FS. lra. }
  destruct Kr as [->|[->| ->]]; unfold cof_size, LM; cbv [pred mat_perm mat_abs mat_minor mat_del sum_n ent4 nth Nat.ltb Nat.leb Nat.mul Nat.add m4_0 m4_1 m4_2 m4_3 m4_4 m4_5 m4_6 m4_7 m4_8 m4_9 m4_10 m4_11 m4_12 m4_13 m4_14 m4_15].
  - apply (X n1 n2 n3 d1 d2 d3); try assumption; ring.
  - apply (X r1 r2 r3 d1 d2 d3); try assumption; ring.
  - apply (X r1 r2 r3 n1 n2 n3); try assumption; ring.
Qed.
Lemma lm_cof_w : cof_size 4 (ent4 LM) 3 3 <= 6024 / 1000.
Proof using U K H.
  destruct (fr_ent u k r1 r2 r3 n1 n2 n3 d1 d2 d3 U K H) as ((A1 & A2 & A3) & (B1 & B2 & B3) & (C1 & C2 & C3)).
  assert (E : cof_size 4 (ent4 LM) 3 3 = Rabs r1 * Rabs n2 * Rabs d3 + Rabs r1 * Rabs n3 * Rabs d2 + Rabs n1 * Rabs r2 * Rabs d3 + Rabs n1 * Rabs r3 * Rabs d2 + Rabs d1 * Rabs r2 * Rabs n3 + Rabs d1 * Rabs r3 * Rabs n2).
  { unfold cof_size, LM. cbv [pred mat_perm mat_abs mat_minor mat_del sum_n ent4 nth Nat.ltb Nat.leb Nat.mul Nat.add m4_0 m4_1 m4_2 m4_3 m4_4 m4_5 m4_6 m4_7 m4_8 m4_9 m4_10 m4_11 m4_12 m4_13 m4_14 m4_15]. ring. }
  rewrite E. pose proof (p3 r1 n2 d3 A1 B2 C3). pose proof (p3 r1 n3 d2 A1 B3 C2). pose proof (p3 n1 r2 d3 B1 A2 C3). pose proof (p3 n1 r3 d2 B1 A3 C2). pose proof (p3 d1 r2 n3 C1 A2 B3). pose proof (p3 d1 r3 n2 C1 A3 B2). lra.
Qed.
Notation NI := (ent4 (Rinv4 LM)).
Lemma lm_rows : (NI 0%nat 0%nat = (n2 * d3 - n3 * d2) / LD /\ NI 0%nat 1%nat = (n3 * d1 - n1 * d3) / LD /\ NI 0%nat 2%nat = (n1 * d2 - n2 * d1) / LD) /\
  (NI 1%nat 0%nat = (d2 * r3 - d3 * r2) / LD /\ NI 1%nat 1%nat = (d3 * r1 - d1 * r3) / LD /\ NI 1%nat 2%nat = (d1 * r2 - d2 * r1) / LD) /\
  (NI 2%nat 0%nat = (r2 * n3 - r3 * n2) / LD /\ NI 2%nat 1%nat = (r3 * n1 - r1 * n3) / LD /\ NI 2%nat 2%nat = (r1 * n2 - r2 * n1) / LD).
Proof using. clear.
  unfold Rinv4. rewrite lm_det. unfold LM, m4_divs, adj4. cbv [ent4 nth Nat.mul Nat.add m4_0 m4_1 m4_2 m4_3 m4_4 m4_5 m4_6 m4_7 m4_8 m4_9 m4_10 m4_11 m4_12 m4_13 m4_14 m4_15 m4_map m4_new m4_divs]. cbn [sdiv smul sadd ssub sneg sone R_ops].
  conjs; (unfold Rdiv; f_equal; ring).
Qed.
Lemma lm_N r c : (r < 3)%nat -> (c < 3)%nat -> Rabs (NI r c) <= 1012 / 1000.
Proof using U K H.
  destruct (fr_sq3 u k r1 r2 r3 n1 n2 n3 d1 d2 d3 U K H) as (A & B & C). pose proof lm_D as D. destruct lm_rows as ((E1 & E2 & E3) & (E4 & E5 & E6) & (E7 & E8 & E9)).
  assert (X : forall a1 a2 a3 b1 b2 b3, a1 * a1 + a2 * a2 + a3 * a3 <= 1001 / 1000 -> b1 * b1 + b2 * b2 + b3 * b3 <= 1001 / 1000 -> Rabs ((a2 * b3 - a3 * b2) / LD) <= 1012 / 1000).
  { intros a1 a2 a3 b1 b2 b3 X Y. pose proof (fr_cof2 a1 a2 a3 b1 b2 b3 X Y) as P. unfold Rdiv. rewrite Rabs_mult, Rabs_inv, (Rabs_pos_eq LD) by lra.
    apply Rmult_le_reg_r with LD; [lra|]. rewrite Rmult_assoc, Rinv_l by lra. lra. }
  intros Hr Hc. assert (r = 0 \/ r = 1 \/ r = 2)%nat as Kr by lia. assert (c = 0 \/ c = 1 \/ c = 2)%nat as Kc by lia.
  destruct Kr as [->|[->| ->]], Kc as [->|[->| ->]]; rewrite ?E1, ?E2, ?E3, ?E4, ?E5, ?E6, ?E7, ?E8, ?E9.
  - apply (X n1 n2 n3 d1 d2 d3); lra. - apply (X n2 n3 n1 d2 d3 d1); lra. - apply (X n3 n1 n2 d3 d1 d2); lra.
  - apply (X d1 d2 d3 r1 r2 r3); lra. - apply (X d2 d3 d1 r2 r3 r1); lra. - apply (X d3 d1 d2 r3 r1 r2); lra.
  - apply (X r1 r2 r3 n1 n2 n3); lra. - apply (X r2 r3 r1 n2 n3 n1); lra. - apply (X r3 r1 r2 n3 n1 n2); lra.
Qed.
Lemma lm_tr r : (r < 3)%nat -> NI r 3%nat = - (NI r 0%nat * f1 + NI r 1%nat * f2 + NI r 2%nat * f3) /\ NI 3%nat r = 0.
Proof using.  clear.
  intros Hr. assert (r = 0 \/ r = 1 \/ r = 2)%nat as Kr by lia.
  unfold Rinv4. rewrite lm_det. unfold LM, m4_divs, adj4. cbv [ent4 nth Nat.mul Nat.add m4_0 m4_1 m4_2 m4_3 m4_4 m4_5 m4_6 m4_7 m4_8 m4_9 m4_10 m4_11 m4_12 m4_13 m4_14 m4_15 m4_map m4_new m4_divs]. cbn [sdiv smul sadd ssub sneg sone R_ops].
  destruct Kr as [->|[->| ->]]; (split; unfold Rdiv; ring).
Qed.
Lemma lm_w : NI 3%nat 3%nat = 1.
Proof using U K H.
  pose proof lm_D as D. unfold Rinv4. rewrite lm_det. unfold LM, m4_divs, adj4. cbv [ent4 nth Nat.mul Nat.add m4_0 m4_1 m4_2 m4_3 m4_4 m4_5 m4_6 m4_7 m4_8 m4_9 m4_10 m4_11 m4_12 m4_13 m4_14 m4_15 m4_map m4_new m4_divs]. cbn [sdiv smul sadd ssub sneg sone R_ops].
  apply Rmult_eq_reg_r with LD; [|lra]. unfold Rdiv. rewrite Rmult_assoc, Rinv_l by lra. unfold LD. ring.
Qed.
(* N applied to the columns of the frame *)
Lemma lm_mul (v1 v2 v3 : R) (i : nat) : (i < 3)%nat -> 
  NI i 0%nat * (r1 * v1 + n1 * v2 + d1 * v3) + NI i 1%nat * (r2 * v1 + n2 * v2 + d2 * v3) + NI i 2%nat * (r3 * v1 + n3 * v2 + d3 * v3) = nth i [v1; v2; v3] 0.
Proof using U K H.
  pose proof lm_D as D. destruct lm_rows as ((E1 & E2 & E3) & (E4 & E5 & E6) & (E7 & E8 & E9)).
  intros Hr. assert (i = 0 \/ i = 1 \/ i = 2)%nat as Kr by lia.
  destruct Kr as [->|[->| ->]]; rewrite ?E1, ?E2, ?E3, ?E4, ?E5, ?E6, ?E7, ?E8, ?E9; cbn [nth]; apply Rmult_eq_reg_r with LD; try lra; unfold Rdiv; 
   match goal with |- (?a * / LD * ?x + ?b * / LD * ?y + ?c * / LD * ?z) * LD = _ => replace ((a * / LD * x + b * / LD * y + c * / LD * z) * LD) with (a * x + b * y + c * z) by (field; lra) end; unfold LD; ring.
Qed.
Lemma lm_mul' (v1 v2 v3 : R) :
  let x := NI 0%nat 0%nat * v1 + NI 0%nat 1%nat * v2 + NI 0%nat 2%nat * v3 in let y := NI 1%nat 0%nat * v1 + NI 1%nat 1%nat * v2 + NI 1%nat 2%nat * v3 in let z := NI 2%nat 0%nat * v1 + NI 2%nat 1%nat * v2 + NI 2%nat 2%nat * v3 in
  r1 * x + n1 * y + d1 * z = v1 /\ r2 * x + n2 * y + d2 * z = v2 /\ r3 * x + n3 * y + d3 * z = v3.
Proof using U K H.
  pose proof lm_D as D. destruct lm_rows as ((E1 & E2 & E3) & (E4 & E5 & E6) & (E7 & E8 & E9)). cbv zeta. rewrite E1, E2, E3, E4, E5, E6, E7, E8, E9.
  assert (L : LD <> 0) by lra. revert L. unfold LD. clear. intros L. conjs; field; assumption.
Qed.
End M.
