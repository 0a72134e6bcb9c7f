(** Proofs: extreme corners, the box of the transformed corners (C105, C106). *)
From Coq Require Import Bool NArith ZArith Reals List Lra Lia.
From Flocq Require Import Core.Zaux Core.Raux.
From Verif Require Import Scalar Types Vector2 Vector3 Point2 Point3 Ray BoundingBox2 BoundingBox3 Transform2 Transform3 Float
  XReal OrdLaws Arith SpecOrder SpecFloat SpecErr SpecReal SpecHull OrderProofs OrderBox Struct FloatX XArith FloatLaws SlabBase ExVals ErrBase FloatErr FloatTrans FloatMono FloatChain FloatPerm FloatRange FloatNear.
Import ListNotations.
Local Open Scope R_scope.
Notation BND2 := 4%N (only parsing).
Notation BND3 := 8%N (only parsing).
Section A.
Context {A : arith}.
Implicit Types a b c e x y z l h lo hi lx hx ly hy lz hz : num A.
Implicit Types s t w : bool.
Let L := num_OrdLaws A.
Definition pk (s : bool) lo hi : num A := if s then hi else lo.
Definition btw x l h : Prop := Finite l /\ Finite h /\ Le l x /\ Le x h.
Lemma btw_fin x l h : btw x l h -> Finite x.
Proof. intros (Fl & Fh & H1 & H2). apply (fin_between l h); try assumption. left. now split. Qed.
Lemma btw_self x : Finite x -> btw x x x.
Proof. intros F. pose proof (finite_NoNaN x F). repeat split; try assumption; now apply (Le_refl L). Qed.
Lemma btw_mul a lo x hi : Finite x -> Le lo x -> Le x hi -> Finite (smul a (pk (sle szero (sneg a)) lo hi)) -> Finite (smul a (pk (sle szero a) lo hi)) ->
  btw (smul a x) (smul a (pk (sle szero (sneg a)) lo hi)) (smul a (pk (sle szero a) lo hi)).
Proof.
  intros Fx H1 H2 F1 F2. split; [exact F1|]. split; [exact F2|]. destruct (err_mul _ _ F1) as (Fa & Fl & _). destruct (err_mul _ _ F2) as (_ & Fh & _).
  apply Finite_tx in Fa, Fl, Fh, Fx. destruct Fa as [ra Ea], Fl as [rl El], Fh as [rh Eh], Fx as [rx Ex]. unfold pk in *.
  rewrite (tx_le szero a), (tx_le szero (sneg a)), tx_neg, tx_0, Ea in *. cbn [xneg] in *. rewrite !Le_tx, !tx_mul, Ea, Ex in *.
  destruct (xle (Fin 0) (Fin ra)) eqn:Q1, (xle (Fin 0) (Fin (- ra))) eqn:Q2; rewrite ?El, ?Eh in *;
    try (assert (Z : ~ (0 <= ra)) by (intros K; apply xle_fin in K; congruence)); try (assert (Z' : ~ (0 <= - ra)) by (intros K; apply xle_fin in K; congruence)); rewrite ?xle_fin in *;
    try lra; (split; apply xr_mono; cbn [xmul]; apply xle_fin; first [nra | assert (ra = 0) by lra; subst ra; lra]).
Qed.
Lemma btw_add x xl xh y yl yh : btw x xl xh -> btw y yl yh -> Finite (sadd xl yl) -> Finite (sadd xh yh) -> btw (sadd x y) (sadd xl yl) (sadd xh yh).
Proof.
  intros Bx By F1 F2. pose proof (btw_fin _ _ _ Bx) as Fx. pose proof (btw_fin _ _ _ By) as Fy. destruct Bx as (Fxl & Fxh & X1 & X2), By as (Fyl & Fyh & Y1 & Y2). split; [exact F1|]. split; [exact F2|]. clear F1 F2.
  apply Finite_tx in Fx, Fy, Fxl, Fxh, Fyl, Fyh. destruct Fx as [rx Ex], Fy as [ry Ey], Fxl as [rxl Exl], Fxh as [rxh Exh], Fyl as [ryl Eyl], Fyh as [ryh Eyh].
  rewrite !Le_tx, !tx_add in *. rewrite ?Ex, ?Ey, ?Exl, ?Exh, ?Eyl, ?Eyh in *. rewrite !xle_fin in X1, X2, Y1, Y2. split; apply xr_mono; cbn [xadd]; apply xle_fin; lra.
Qed.
Lemma fin_add x y : Finite (sadd x y) -> Finite x /\ Finite y.
Proof. intros F. destruct (err_add _ _ F) as (F1 & F2 & _). now split. Qed.
Definition row2 a b c x y : num A := sadd (sadd (smul a x) (smul b y)) c.
Definition row3 a b c e x y z : num A := sadd (sadd (sadd (smul a x) (smul b y)) (smul c z)) e.
Lemma row2_ext a b c lx hx ly hy x y : Finite x -> Finite y -> Le lx x -> Le x hx -> Le ly y -> Le y hy -> (forall s t, Finite (row2 a b c (pk s lx hx) (pk t ly hy))) ->
  exists s t s' t', Le (row2 a b c (pk s lx hx) (pk t ly hy)) (row2 a b c x y) /\ Le (row2 a b c x y) (row2 a b c (pk s' lx hx) (pk t' ly hy)).
Proof.
  intros Fx Fy X1 X2 Y1 Y2 F. exists (sle szero (sneg a)), (sle szero (sneg b)), (sle szero a), (sle szero b).
  pose proof (F (sle szero (sneg a)) (sle szero (sneg b))) as F1. pose proof (F (sle szero a) (sle szero b)) as F2. clear F. unfold row2 in *.
  destruct (fin_add _ _ F1) as [G1 Gc]. destruct (fin_add _ _ F2) as [G2 _]. destruct (fin_add _ _ G1) as [I1 J1]. destruct (fin_add _ _ G2) as [I2 J2].
  pose proof (btw_add _ _ _ _ _ _ (btw_add _ _ _ _ _ _ (btw_mul a lx x hx Fx X1 X2 I1 I2) (btw_mul b ly y hy Fy Y1 Y2 J1 J2) G1 G2) (btw_self c Gc) F1 F2) as (_ & _ & K1 & K2). now split.
Qed.
Lemma row3_ext a b c e lx hx ly hy lz hz x y z : Finite x -> Finite y -> Finite z -> Le lx x -> Le x hx -> Le ly y -> Le y hy -> Le lz z -> Le z hz -> (forall s t w, Finite (row3 a b c e (pk s lx hx) (pk t ly hy) (pk w lz hz))) ->
  exists s t w s' t' w', Le (row3 a b c e (pk s lx hx) (pk t ly hy) (pk w lz hz)) (row3 a b c e x y z) /\ Le (row3 a b c e x y z) (row3 a b c e (pk s' lx hx) (pk t' ly hy) (pk w' lz hz)).
Proof.
  intros Fx Fy Fz X1 X2 Y1 Y2 Z1 Z2 F. exists (sle szero (sneg a)), (sle szero (sneg b)), (sle szero (sneg c)), (sle szero a), (sle szero b), (sle szero c).
  pose proof (F (sle szero (sneg a)) (sle szero (sneg b)) (sle szero (sneg c))) as F1. pose proof (F (sle szero a) (sle szero b) (sle szero c)) as F2. clear F. unfold row3 in *.
  destruct (fin_add _ _ F1) as [H1 Gc]. destruct (fin_add _ _ F2) as [H2 _]. destruct (fin_add _ _ H1) as [G1 M1]. destruct (fin_add _ _ H2) as [G2 M2]. destruct (fin_add _ _ G1) as [I1 J1]. destruct (fin_add _ _ G2) as [I2 J2].
  pose proof (btw_add _ _ _ _ _ _ (btw_add _ _ _ _ _ _ (btw_add _ _ _ _ _ _ (btw_mul a lx x hx Fx X1 X2 I1 I2) (btw_mul b ly y hy Fy Y1 Y2 J1 J2) G1 G2) (btw_mul c lz z hz Fz Z1 Z2 M1 M2) H1 H2) (btw_self e Gc) F1 F2) as (_ & _ & K1 & K2). now split.
Qed.
Definition cpt2 (bx : BoundingBox2 (num A)) (s t : bool) : Point2 (num A) := mkPoint2 (pk s (p2x (bb2_min bx)) (p2x (bb2_max bx))) (pk t (p2y (bb2_min bx)) (p2y (bb2_max bx))).
Definition cpt3 (bx : BoundingBox3 (num A)) (s t w : bool) : Point3 (num A) := mkPoint3 (pk s (p3x (bb3_min bx)) (p3x (bb3_max bx))) (pk t (p3y (bb3_min bx)) (p3y (bb3_max bx))) (pk w (p3z (bb3_min bx)) (p3z (bb3_max bx))).
Lemma corner_cpt2 prof bx s t : bb2_corner prof bx ((if s then 1 else 0) + (if t then 2 else 0))%N = Ret (cpt2 bx s t).
Proof. unfold bb2_corner, debug_assert. destruct prof as [[] []], s, t; reflexivity. Qed.
Lemma corner_cpt3 prof bx s t w : bb3_corner prof bx ((if s then 1 else 0) + (if t then 2 else 0) + (if w then 4 else 0))%N = Ret (cpt3 bx s t w).
Proof. unfold bb3_corner, debug_assert. destruct prof as [[] []], s, t, w; reflexivity. Qed.
Lemma corners2_all prof bx : corners2 prof bx = [cpt2 bx false false; cpt2 bx true false; cpt2 bx false true; cpt2 bx true true].
Proof. unfold corners2, bb2_corner, debug_assert. destruct prof as [[] []]; reflexivity. Qed.
Lemma corners_in2 prof bx s t : In (cpt2 bx s t) (corners2 prof bx).
Proof. unfold corners2. apply in_flat_map. exists ((if s then 1 else 0) + (if t then 2 else 0))%N. split; [destruct s, t; cbn; tauto|]. rewrite corner_cpt2. now left. Qed.
Lemma corners_in3 prof bx s t w : In (cpt3 bx s t w) (corners3 prof bx).
Proof. unfold corners3. apply in_flat_map. exists ((if s then 1 else 0) + (if t then 2 else 0) + (if w then 4 else 0))%N. split; [destruct s, t, w; cbn; tauto|]. rewrite corner_cpt3. now left. Qed.
(* one coordinate of the image of an affine matrix *)
Lemma aff_coord2 (m : Matrix3x3 (num A)) p d : Affine3x3 m -> Finite2 p -> tx (coord2 (m3_mul_point m p) d) =
  tx (match d with D2X => row2 (m3_0 m) (m3_1 m) (m3_2 m) (p2x p) (p2y p) | D2Y => row2 (m3_3 m) (m3_4 m) (m3_5 m) (p2x p) (p2y p) end).
Proof. intros M F. pose proof (affine_w2 m p M F) as W. destruct d; exact (div_1 _ _ W). Qed.
Lemma aff_coord3 (m : Matrix4x4 (num A)) p d : Affine4x4 m -> Finite3 p -> tx (coord3 (m4_mul_point m p) d) =
  tx (match d with D3X => row3 (m4_0 m) (m4_1 m) (m4_2 m) (m4_3 m) (p3x p) (p3y p) (p3z p) | D3Y => row3 (m4_4 m) (m4_5 m) (m4_6 m) (m4_7 m) (p3x p) (p3y p) (p3z p) | D3Z => row3 (m4_8 m) (m4_9 m) (m4_10 m) (m4_11 m) (p3x p) (p3y p) (p3z p) end).
Proof. intros M F. pose proof (affine_w3 m p M F) as W. destruct d; exact (div_1 _ _ W). Qed.
Lemma Le_tx_eq x y x' y' : tx x = tx x' -> tx y = tx y' -> Le x' y' -> Le x y.
Proof. intros E1 E2. rewrite !Le_tx, E1, E2. easy. Qed.
Lemma Finite_tx_eq x x' : tx x = tx x' -> Finite x -> Finite x'.
Proof. intros E. rewrite !Finite_tx, E. easy. Qed.
Lemma cpt2_fin bx s t : BFinite2 bx -> Finite2 (cpt2 bx s t).
Proof. intros [F1 F2] []; [pose proof (F1 D2X); pose proof (F2 D2X); destruct s | pose proof (F1 D2Y); pose proof (F2 D2Y); destruct t]; assumption. Qed.
Lemma cpt3_fin bx s t w : BFinite3 bx -> Finite3 (cpt3 bx s t w).
Proof. intros [F1 F2] []; [pose proof (F1 D3X); pose proof (F2 D3X); destruct s | pose proof (F1 D3Y); pose proof (F2 D3Y); destruct t | pose proof (F1 D3Z); pose proof (F2 D3Z); destruct w]; assumption. Qed.
Lemma aff_ext2 (m : Matrix3x3 (num A)) bx p d : Affine3x3 m -> BFinite2 bx -> In2 p bx -> (forall s t, Finite (coord2 (m3_mul_point m (cpt2 bx s t)) d)) ->
  exists s t s' t', Le (coord2 (m3_mul_point m (cpt2 bx s t)) d) (coord2 (m3_mul_point m p) d) /\ Le (coord2 (m3_mul_point m p) d) (coord2 (m3_mul_point m (cpt2 bx s' t')) d).
Proof.
  intros M B [I1 I2] F. assert (Fp : Finite2 p) by (intros e; apply (fin_between (coord2 (bb2_min bx) e) (coord2 (bb2_max bx) e)); [apply B | apply B | left; split; [apply I1 | apply I2]]).
  pose proof (fun s t => aff_coord2 m (cpt2 bx s t) d M (cpt2_fin bx s t B)) as E. pose proof (aff_coord2 m p d M Fp) as Ep.
  assert (G : forall s t, Finite (match d with D2X => row2 (m3_0 m) (m3_1 m) (m3_2 m) (p2x (cpt2 bx s t)) (p2y (cpt2 bx s t)) | D2Y => row2 (m3_3 m) (m3_4 m) (m3_5 m) (p2x (cpt2 bx s t)) (p2y (cpt2 bx s t)) end)) by (intros s t; exact (Finite_tx_eq _ _ (E s t) (F s t))).
  destruct d; destruct (row2_ext _ _ _ _ _ _ _ (p2x p) (p2y p) (Fp D2X) (Fp D2Y) (I1 D2X) (I2 D2X) (I1 D2Y) (I2 D2Y) G) as (s & t & s' & t' & K1 & K2); exists s, t, s', t'; (split; [exact (Le_tx_eq _ _ _ _ (E _ _) Ep K1) | exact (Le_tx_eq _ _ _ _ Ep (E _ _) K2)]).
Qed.
Lemma aff_ext3 (m : Matrix4x4 (num A)) bx p d : Affine4x4 m -> BFinite3 bx -> In3 p bx -> (forall s t w, Finite (coord3 (m4_mul_point m (cpt3 bx s t w)) d)) ->
  exists s t w s' t' w', Le (coord3 (m4_mul_point m (cpt3 bx s t w)) d) (coord3 (m4_mul_point m p) d) /\ Le (coord3 (m4_mul_point m p) d) (coord3 (m4_mul_point m (cpt3 bx s' t' w')) d).
Proof.
  intros M B [I1 I2] F. assert (Fp : Finite3 p) by (intros e; apply (fin_between (coord3 (bb3_min bx) e) (coord3 (bb3_max bx) e)); [apply B | apply B | left; split; [apply I1 | apply I2]]).
  pose proof (fun s t w => aff_coord3 m (cpt3 bx s t w) d M (cpt3_fin bx s t w B)) as E. pose proof (aff_coord3 m p d M Fp) as Ep.
  pose proof (fun s t w => Finite_tx_eq _ _ (E s t w) (F s t w)) as G.
  destruct d; destruct (row3_ext _ _ _ _ _ _ _ _ _ _ (p3x p) (p3y p) (p3z p) (Fp D3X) (Fp D3Y) (Fp D3Z) (I1 D3X) (I2 D3X) (I1 D3Y) (I2 D3Y) (I1 D3Z) (I2 D3Z) G) as (s & t & w & s' & t' & w' & K1 & K2); exists s, t, w, s', t', w'; (split; [exact (Le_tx_eq _ _ _ _ (E _ _ _) Ep K1) | exact (Le_tx_eq _ _ _ _ Ep (E _ _ _) K2)]).
Qed.
End A.
Lemma C105_extreme_corners_2d_pf : forall (A : arith) (prof : profile) (b : BoundingBox2 (num A)) (v : Vector2 (num A)) (p : Point2 (num A)), bb2_is_inside b p = true -> Finite2 p ->
  exists lo hi, bb2_corner prof b (support2 (v2_neg v)) = Ret lo /\ bb2_corner prof b (support2 v) = Ret hi /\
  (Finite (v2_dot v (v2_from lo)) -> Finite (v2_dot v (v2_from hi)) ->
   Finite (v2_dot v (v2_from p)) /\ Le (v2_dot v (v2_from lo)) (v2_dot v (v2_from p)) /\ Le (v2_dot v (v2_from p)) (v2_dot v (v2_from hi))).
Proof.
  intros A prof b v p I Fp. apply bb2_is_inside_iff in I. destruct I as [I1 I2]. unfold support2. rewrite !corner_cpt2. eexists. eexists. split; [reflexivity|]. split; [reflexivity|].
  unfold v2_dot, v2_from, v2_new, v2_neg, cpt2. cbn [v2x v2y p2x p2y]. intros G1 G2. destruct (fin_add _ _ G1) as [X1 Y1]. destruct (fin_add _ _ G2) as [X2 Y2].
  pose proof (btw_add _ _ _ _ _ _ (btw_mul _ _ _ _ (Fp D2X) (I1 D2X) (I2 D2X) X1 X2) (btw_mul _ _ _ _ (Fp D2Y) (I1 D2Y) (I2 D2Y) Y1 Y2) G1 G2) as K. split; [exact (btw_fin _ _ _ K)|]. destruct K as (_ & _ & K1 & K2). now split.
Qed.
Lemma C105_extreme_corners_3d_pf : forall (A : arith) (prof : profile) (b : BoundingBox3 (num A)) (v : Vector3 (num A)) (p : Point3 (num A)), bb3_is_inside b p = true -> Finite3 p ->
  exists lo hi, bb3_corner prof b (support3 (v3_neg v)) = Ret lo /\ bb3_corner prof b (support3 v) = Ret hi /\
  (Finite (v3_dot v (v3_from lo)) -> Finite (v3_dot v (v3_from hi)) ->
   Finite (v3_dot v (v3_from p)) /\ Le (v3_dot v (v3_from lo)) (v3_dot v (v3_from p)) /\ Le (v3_dot v (v3_from p)) (v3_dot v (v3_from hi))).
Proof.
  intros A prof b v p I Fp. apply bb3_is_inside_iff in I. destruct I as [I1 I2]. unfold support3. rewrite !corner_cpt3. eexists. eexists. split; [reflexivity|]. split; [reflexivity|].
  unfold v3_dot, v3_from, v3_new, v3_neg, cpt3. cbn [v3x v3y v3z p3x p3y p3z]. intros G1 G2. destruct (fin_add _ _ G1) as [H1 Z1]. destruct (fin_add _ _ G2) as [H2 Z2]. destruct (fin_add _ _ H1) as [X1 Y1]. destruct (fin_add _ _ H2) as [X2 Y2].
  pose proof (btw_add _ _ _ _ _ _ (btw_add _ _ _ _ _ _ (btw_mul _ _ _ _ (Fp D3X) (I1 D3X) (I2 D3X) X1 X2) (btw_mul _ _ _ _ (Fp D3Y) (I1 D3Y) (I2 D3Y) Y1 Y2) H1 H2) (btw_mul _ _ _ _ (Fp D3Z) (I1 D3Z) (I2 D3Z) Z1 Z2) G1 G2) as K. split; [exact (btw_fin _ _ _ K)|]. destruct K as (_ & _ & K1 & K2). now split.
Qed.
Lemma C106_corner_hull_2d_pf : forall (A : arith) (prof : profile) (t : Transform2 (num A)) (b : BoundingBox2 (num A)) (p : Point2 (num A)), Affine3x3 (t2_forward t) -> BFinite2 b ->
  (forall c, In c (corners2 prof b) -> Finite2 (t2_transform_point t c)) -> bb2_is_inside b p = true ->
  bb2_is_inside (hull2 (map (t2_transform_point t) (corners2 prof b))) (t2_transform_point t p) = true.
Proof.
  intros A prof t b p M B F I. pose proof (num_OrdLaws A) as L. apply bb2_is_inside_iff in I. apply bb2_is_inside_iff. set (l := map (t2_transform_point t) (corners2 prof b)).
  assert (N : forall q, In q l -> NoNaN2 q) by (intros q Q; apply in_map_iff in Q; destruct Q as (c & <- & Q); intros d; apply finite_NoNaN; now apply F).
  assert (C : forall s u, In (t2_transform_point t (cpt2 b s u)) l) by (intros s u; apply in_map, corners_in2).
  destruct (bb2_accumulate L l) as (_ & T & _); [intros E; specialize (C true true); rewrite E in C; destruct C | exact N|]. unfold hull2.
  assert (K : forall d, _) by (intros d; exact (aff_ext2 (t2_forward t) b p d M B I (fun s u => F _ (corners_in2 prof b s u) d))).
  split; intros d; destruct (K d) as (s & u & s' & u' & K1 & K2).
  - eapply (Le_trans L); [exact (proj1 (T _ (C s u)) d) | exact K1].
  - eapply (Le_trans L); [exact K2 | exact (proj2 (T _ (C s' u')) d)].
Qed.
Lemma C106_corner_hull_3d_pf : forall (A : arith) (prof : profile) (t : Transform3 (num A)) (b : BoundingBox3 (num A)) (p : Point3 (num A)), Affine4x4 (t3_forward t) -> BFinite3 b ->
  (forall c, In c (corners3 prof b) -> Finite3 (t3_transform_point t c)) -> bb3_is_inside b p = true ->
  bb3_is_inside (hull3 (map (t3_transform_point t) (corners3 prof b))) (t3_transform_point t p) = true.
Proof.
  intros A prof t b p M B F I. pose proof (num_OrdLaws A) as L. apply bb3_is_inside_iff in I. apply bb3_is_inside_iff. set (l := map (t3_transform_point t) (corners3 prof b)).
  assert (N : forall q, In q l -> NoNaN3 q) by (intros q Q; apply in_map_iff in Q; destruct Q as (c & <- & Q); intros d; apply finite_NoNaN; now apply F).
  assert (C : forall s u w, In (t3_transform_point t (cpt3 b s u w)) l) by (intros s u w; apply in_map, corners_in3).
  destruct (bb3_accumulate L l) as (_ & T & _); [intros E; specialize (C true true true); rewrite E in C; destruct C | exact N|]. unfold hull3.
  assert (K : forall d, _) by (intros d; exact (aff_ext3 (t3_forward t) b p d M B I (fun s u w => F _ (corners_in3 prof b s u w) d))).
  split; intros d; destruct (K d) as (s & u & w & s' & u' & w' & K1 & K2).
  - eapply (Le_trans L); [exact (proj1 (T _ (C s u w)) d) | exact K1].
  - eapply (Le_trans L); [exact K2 | exact (proj2 (T _ (C s' u' w')) d)].
Qed.
Lemma C106_hull_is_smallest_2d_pf : forall (A : arith) (prof : profile) (t : Transform2 (num A)) (b c : BoundingBox2 (num A)), (forall q, In q (corners2 prof b) -> Finite2 (t2_transform_point t q)) ->
  (forall p, bb2_is_inside b p = true -> bb2_is_inside c (t2_transform_point t p) = true) -> Ordered2 b ->
  forall q, bb2_is_inside (hull2 (map (t2_transform_point t) (corners2 prof b))) q = true -> bb2_is_inside c q = true.
Proof.
  intros A prof t b c F H O q. pose proof (num_OrdLaws A) as L. rewrite !bb2_is_inside_iff. set (l := map (t2_transform_point t) (corners2 prof b)).
  assert (N : forall q, In q l -> NoNaN2 q) by (intros x Q; apply in_map_iff in Q; destruct Q as (y & <- & Q); intros d; apply finite_NoNaN; now apply F).
  assert (E : l <> []) by (unfold l, corners2; destruct prof as [[] []]; discriminate).
  destruct (bb2_accumulate L l E N) as (_ & _ & T & _). apply T. intros x Q. apply in_map_iff in Q. destruct Q as (y & <- & Q). apply bb2_is_inside_iff, H, bb2_is_inside_iff.
  unfold corners2 in Q. apply in_flat_map in Q. destruct Q as (i & Ii & Q).
  assert (K : exists y', bb2_corner prof b i = Ret y' /\ In2 y' b).
  { assert (P : debug_assertions prof = false \/ (i < BND2)%N) by (right; cbn in Ii; intuition (subst; reflexivity)). destruct (bb2_corner_ok prof b i P) as (y' & Ey & Cy). exists y'. split; [exact Ey|].
    pose proof (fun d => proj1 (Le_nan L _ _ (O d))) as N1. pose proof (fun d => proj2 (Le_nan L _ _ (O d))) as N2.
    split; intros d; rewrite Cy; destruct (N.testbit i _); first [apply O | apply (Le_refl L); first [apply N1 | apply N2]]. }
  destruct K as (y' & Ey & Iy). rewrite Ey in Q. destruct Q as [<-|[]]. exact Iy.
Qed.
Lemma C106_hull_is_smallest_3d_pf : forall (A : arith) (prof : profile) (t : Transform3 (num A)) (b c : BoundingBox3 (num A)), (forall q, In q (corners3 prof b) -> Finite3 (t3_transform_point t q)) ->
  (forall p, bb3_is_inside b p = true -> bb3_is_inside c (t3_transform_point t p) = true) -> Ordered3 b ->
  forall q, bb3_is_inside (hull3 (map (t3_transform_point t) (corners3 prof b))) q = true -> bb3_is_inside c q = true.
Proof.
  intros A prof t b c F H O q. pose proof (num_OrdLaws A) as L. rewrite !bb3_is_inside_iff. set (l := map (t3_transform_point t) (corners3 prof b)).
  assert (N : forall q, In q l -> NoNaN3 q) by (intros x Q; apply in_map_iff in Q; destruct Q as (y & <- & Q); intros d; apply finite_NoNaN; now apply F).
  assert (E : l <> []) by (unfold l, corners3; destruct prof as [[] []]; discriminate).
  destruct (bb3_accumulate L l E N) as (_ & _ & T & _). apply T. intros x Q. apply in_map_iff in Q. destruct Q as (y & <- & Q). apply bb3_is_inside_iff, H, bb3_is_inside_iff.
  unfold corners3 in Q. apply in_flat_map in Q. destruct Q as (i & Ii & Q).
  assert (K : exists y', bb3_corner prof b i = Ret y' /\ In3 y' b).
  { assert (P : debug_assertions prof = false \/ (i < BND3)%N) by (right; cbn in Ii; intuition (subst; reflexivity)). destruct (bb3_corner_ok prof b i P) as (y' & Ey & Cy). exists y'. split; [exact Ey|].
    pose proof (fun d => proj1 (Le_nan L _ _ (O d))) as N1. pose proof (fun d => proj2 (Le_nan L _ _ (O d))) as N2.
    split; intros d; rewrite Cy; destruct (N.testbit i _); first [apply O | apply (Le_refl L); first [apply N1 | apply N2]]. }
  destruct K as (y' & Ey & Iy). rewrite Ey in Q. destruct Q as [<-|[]]. exact Iy.
Qed.
