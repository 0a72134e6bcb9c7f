(** Proofs: monotonicity in floating point (ray evaluation, lengths and distances). *)
From Coq Require Import Bool NArith ZArith Reals List Lra Lia Psatz.
From Flocq Require Import Core.Raux.
From Verif Require Import Scalar Types Vector2 Vector3 Point2 Point3 Ray BoundingBox2 BoundingBox3 Transform2 Transform3 Float
  XReal OrdLaws Arith SpecOrder SpecFloat SpecErr OrderProofs OrderBox Comm FloatX XArith FloatLaws FloatGeom ErrBase SlabBase FloatTrans.
Import ListNotations.
Local Open Scope R_scope.
Lemma xadd_mono_r (x y : xreal) r : xle x y = true -> xle (xadd (Fin r) x) (xadd (Fin r) y) = true.
Proof. destruct x as [a| | |], y as [b| | |]; cbn [xadd]; try (intros; reflexivity); try (intros; discriminate). rewrite !xle_fin. lra. Qed.
Lemma xadd_mono_l (x y : xreal) r : xle x y = true -> xle (xadd x (Fin r)) (xadd y (Fin r)) = true.
Proof. destruct x as [a| | |], y as [b| | |]; cbn [xadd]; try (intros; reflexivity); try (intros; discriminate). rewrite !xle_fin. lra. Qed.
Section At.
Context {A : arith}.
Implicit Types (o d x y : num A).
Lemma at_mono_pos o d x y : Finite o -> Finite d -> Finite x -> Finite y -> Le szero d -> Le x y -> Le (sadd o (smul d x)) (sadd o (smul d y)).
Proof.
  rewrite !Finite_tx, !Le_tx. intros [ro Eo] [rd Ed] [rx Ex] [ry Ey]. rewrite !tx_add, !tx_mul, tx_0, Eo, Ed, Ex, Ey, !xle_fin. intros P H.
  apply xr_mono. apply xadd_mono_r. apply xr_mono. cbn [xmul]. apply xle_fin. nra.
Qed.
Lemma at_mono_neg o d x y : Finite o -> Finite d -> Finite x -> Finite y -> Le d szero -> Le x y -> Le (sadd o (smul d y)) (sadd o (smul d x)).
Proof.
  rewrite !Finite_tx, !Le_tx. intros [ro Eo] [rd Ed] [rx Ex] [ry Ey]. rewrite !tx_add, !tx_mul, tx_0, Eo, Ed, Ex, Ey, !xle_fin. intros P H.
  apply xr_mono. apply xadd_mono_r. apply xr_mono. cbn [xmul]. apply xle_fin. nra.
Qed.
Lemma fin_sign d : Finite d -> Le szero d \/ Le d szero.
Proof. rewrite !Finite_tx, !Le_tx, tx_0. intros [r ->]. rewrite !xle_fin. lra. Qed.
Lemma le_trans x y z : Le x y -> Le y z -> Le x z.
Proof. rewrite !Le_tx. apply xle_trans. Qed.
Lemma at_between o d x y z lo hi : Finite o -> Finite d -> Finite x -> Finite y -> Finite z -> Le x y -> Le y z ->
  Le lo (sadd o (smul d x)) -> Le (sadd o (smul d x)) hi -> Le lo (sadd o (smul d z)) -> Le (sadd o (smul d z)) hi ->
  Le lo (sadd o (smul d y)) /\ Le (sadd o (smul d y)) hi.
Proof.
  intros Fo Fd Fx Fy Fz H1 H2 A1 A2 A3 A4. destruct (fin_sign d Fd) as [P|N].
  - split; [exact (le_trans _ _ _ A1 (at_mono_pos o d x y Fo Fd Fx Fy P H1)) | exact (le_trans _ _ _ (at_mono_pos o d y z Fo Fd Fy Fz P H2) A4)].
  - split; [exact (le_trans _ _ _ A3 (at_mono_neg o d y z Fo Fd Fy Fz N H2)) | exact (le_trans _ _ _ (at_mono_neg o d x y Fo Fd Fx Fy N H1) A2)].
Qed.
End At.
Lemma C69_ray_at_monotone_2d_pf : forall (A : arith) (r : Ray2 (num A)) (s t : num A), Finite2 (r2_origin r) -> VFinite2 (r2_direction r) -> Finite s -> Finite t -> Le s t ->
  forall d, (Le szero (vcoord2 (r2_direction r) d) -> Le (coord2 (r2_at r s) d) (coord2 (r2_at r t) d)) /\
            (Le (vcoord2 (r2_direction r) d) szero -> Le (coord2 (r2_at r t) d) (coord2 (r2_at r s) d)).
Proof.
  intros A r s t Fo Fd Fs Ft H d. specialize (Fo d). specialize (Fd d). unfold r2_at, p2_add, v2_mul, p2_new, v2_new. destruct d; cbn in *; (split; intros P; [now apply at_mono_pos | now apply at_mono_neg]).
Qed.
Lemma C69_ray_at_monotone_3d_pf : forall (A : arith) (r : Ray3 (num A)) (s t : num A), Finite3 (r3_origin r) -> VFinite3 (r3_direction r) -> Finite s -> Finite t -> Le s t ->
  forall d, (Le szero (vcoord3 (r3_direction r) d) -> Le (coord3 (r3_at r s) d) (coord3 (r3_at r t) d)) /\
            (Le (vcoord3 (r3_direction r) d) szero -> Le (coord3 (r3_at r t) d) (coord3 (r3_at r s) d)).
Proof.
  intros A r s t Fo Fd Fs Ft H d. specialize (Fo d). specialize (Fd d). unfold r3_at, p3_add, v3_mul, p3_new, v3_new. destruct d; cbn in *; (split; intros P; [now apply at_mono_pos | now apply at_mono_neg]).
Qed.
Lemma C69_inside_is_an_interval_2d_pf : forall (A : arith) (b : BoundingBox2 (num A)) (r : Ray2 (num A)) (s t u : num A), Finite2 (r2_origin r) -> VFinite2 (r2_direction r) ->
  Finite s -> Finite t -> Finite u -> Le s t -> Le t u ->
  bb2_is_inside b (r2_at r s) = true -> bb2_is_inside b (r2_at r u) = true -> bb2_is_inside b (r2_at r t) = true.
Proof.
  intros A b r s t u Fo Fd Fs Ft Fu H1 H2 I1 I3. apply bb2_is_inside_iff in I1, I3. apply bb2_is_inside_iff. destruct I1 as [L1 R1], I3 as [L3 R3].
  split; intros d; specialize (Fo d); specialize (Fd d); specialize (L1 d); specialize (R1 d); specialize (L3 d); specialize (R3 d);
    unfold r2_at, p2_add, v2_mul, p2_new, v2_new in *; destruct d; cbn in *;
    match goal with
    | L1 : Le ?lo (sadd ?o (smul ?d s)), R1 : Le (sadd ?o (smul ?d s)) ?hi |- _ => destruct (at_between o d s t u lo hi) as [? ?]; assumption
    end.
Qed.
Lemma C69_inside_is_an_interval_3d_pf : forall (A : arith) (b : BoundingBox3 (num A)) (r : Ray3 (num A)) (s t u : num A), Finite3 (r3_origin r) -> VFinite3 (r3_direction r) ->
  Finite s -> Finite t -> Finite u -> Le s t -> Le t u ->
  bb3_is_inside b (r3_at r s) = true -> bb3_is_inside b (r3_at r u) = true -> bb3_is_inside b (r3_at r t) = true.
Proof.
  intros A b r s t u Fo Fd Fs Ft Fu H1 H2 I1 I3. apply bb3_is_inside_iff in I1, I3. apply bb3_is_inside_iff. destruct I1 as [L1 R1], I3 as [L3 R3].
  split; intros d; specialize (Fo d); specialize (Fd d); specialize (L1 d); specialize (R1 d); specialize (L3 d); specialize (R3 d);
    unfold r3_at, p3_add, v3_mul, p3_new, v3_new in *; destruct d; cbn in *;
    match goal with
    | L1 : Le ?lo (sadd ?o (smul ?d s)), R1 : Le (sadd ?o (smul ?d s)) ?hi |- _ => destruct (at_between o d s t u lo hi) as [? ?]; assumption
    end.
Qed.
Lemma xle_abs_between (a b c : xreal) : xle a b = true -> xle b c = true -> xle (xabs b) (xabs c) = true \/ xle (xabs b) (xabs a) = true.
Proof.
  destruct a as [a| | |], b as [b| | |], c as [c| | |]; cbn [xabs]; try (intros; discriminate); try (intros; left; reflexivity); try (intros; right; reflexivity).
  rewrite !xle_fin. intros. unfold Rabs. destruct (Rcase_abs a), (Rcase_abs b), (Rcase_abs c); lra.
Qed.
Section Len.
Context {A : arith}.
Implicit Types (x y z p q : num A).
Lemma xr_abs (x : xreal) : xr A (xabs x) = xabs (xr A x).
Proof.
  destruct x as [r| | |]; cbn [xabs]; rewrite ?xr_pinf, ?xr_ninf, ?xr_xnan; try reflexivity.
  destruct (Rle_or_lt 0 r) as [H|H].
  - rewrite Rabs_pos_eq by assumption. assert (K : xle (Fin 0) (xr A (Fin r)) = true) by (apply xr_nn; now apply xle_fin).
    destruct (xr A (Fin r)) as [s| | |]; cbn in K |- *; try reflexivity; try discriminate. apply xle_fin in K. now rewrite Rabs_pos_eq.
  - rewrite Rabs_left by assumption. change (Fin (- r)) with (xneg (Fin r)). rewrite xr_neg. assert (K : xle (xr A (Fin r)) (Fin 0) = true) by (apply xr_np; apply xle_fin; lra).
    destruct (xr A (Fin r)) as [s| | |]; cbn in K |- *; try reflexivity; try discriminate. apply xle_fin in K. now rewrite Rabs_left1.
Qed.
Lemma sq_mono x y : Le (sabs x) (sabs y) -> Le (smul x x) (smul y y).
Proof.
  rewrite !Le_tx, !tx_abs, !tx_mul. intros H. apply xr_mono. destruct (tx x) as [a| | |], (tx y) as [b| | |]; cbn [xmul xabs] in *; try discriminate; try reflexivity.
  apply xle_fin in H. apply xle_fin. change (a * a) with (Rsqr a). change (b * b) with (Rsqr b). now apply Rsqr_le_abs_1.
Qed.
Lemma sq_nn x y : Le (sabs x) (sabs y) -> Le szero (smul x x).
Proof.
  rewrite !Le_tx, !tx_abs, !tx_mul, tx_0. intros H. apply xr_nn. destruct (tx x) as [a| | |]; cbn [xmul xabs] in *; try discriminate; try reflexivity.
  apply xle_fin. nra.
Qed.
Lemma sum_mono x x' y y' : Le szero x -> Le x x' -> Le szero y -> Le y y' -> Le (sadd x y) (sadd x' y') /\ Le szero (sadd x y).
Proof.
  rewrite !Le_tx, !tx_add, tx_0. intros H1 H2 H3 H4. split; [apply xr_mono | apply xr_nn];
   destruct (tx x) as [a| | |], (tx y) as [b| | |], (tx x') as [a'| | |], (tx y') as [b'| | |]; cbn [xadd] in *; try discriminate; try reflexivity; rewrite ?xle_fin in *; lra.
Qed.
Lemma absdiff_between x y z p : Finite p -> Le x y -> Le y z -> Le (sabs (ssub y p)) (sabs (ssub z p)) \/ Le (sabs (ssub y p)) (sabs (ssub x p)).
Proof.
  rewrite Finite_tx, !Le_tx. intros [r E] H1 H2. rewrite !tx_abs, !tx_sub, E. apply xle_abs_between; apply xr_mono; now apply xsub_mono_l.
Qed.
Lemma absdiff_self p x : Le p x \/ Le x p -> Finite p -> Le (sabs (ssub p p)) (sabs (ssub x p)).
Proof.
  rewrite Finite_tx, !Le_tx. intros H [r E]. rewrite !tx_abs, !tx_sub, E in *. rewrite <- !xr_abs. apply xr_mono. destruct (tx x) as [a| | |]; cbn in *; try reflexivity; [|destruct H; discriminate].
  apply xle_fin. rewrite Rplus_opp_r, Rabs_R0. apply Rabs_pos.
Qed.
Lemma absdiff_toward p x y : Finite p -> (Le p x /\ Le x y \/ Le y x /\ Le x p) -> Le (sabs (ssub x p)) (sabs (ssub y p)).
Proof.
  intros F [[H1 H2]|[H1 H2]].
  - destruct (absdiff_between p x y p F H1 H2) as [H|H]; [exact H|]. eapply le_trans; [exact H|]. apply absdiff_self; [left; now apply le_trans with x | exact F].
  - destruct (absdiff_between y x p p F H1 H2) as [H|H]; [|exact H]. eapply le_trans; [exact H|]. apply absdiff_self; [right; now apply le_trans with x | exact F].
Qed.
Lemma not_lt_le x y : Le x y -> slt y x = false.
Proof. rewrite Le_tx, tx_lt, xlt_xle. intros ->. now rewrite andb_false_r. Qed.
End Len.
Lemma dot2_mono {A : arith} (v w : Vector2 (num A)) : (forall d, Le (sabs (vcoord2 v d)) (sabs (vcoord2 w d))) -> Le (v2_dot v v) (v2_dot w w) /\ Le szero (v2_dot v v).
Proof.
  intros H. unfold v2_dot. pose proof (H D2X) as Hx. pose proof (H D2Y) as Hy.  cbn in *.
  pose proof (sum_mono _ _ _ _ (sq_nn _ _ Hx) (sq_mono _ _ Hx) (sq_nn _ _ Hy) (sq_mono _ _ Hy)) as S1.
  first [exact S1 | idtac].
Qed.
Lemma pdist2_mono {A : arith} (p q r : Point2 (num A)) : (forall d, Le (sabs (ssub (coord2 q d) (coord2 p d))) (sabs (ssub (coord2 r d) (coord2 p d)))) ->
  Le (p2_distance p q) (p2_distance p r) /\ p2_is_closer_to p r q = false /\ p2_is_farther_from p q r = false.
Proof.
  intros H. assert (K : forall d, Le (sabs (vcoord2 (p2_sub q p) d)) (sabs (vcoord2 (p2_sub r p) d))) by (intros d; specialize (H d); destruct d; exact H).
  apply dot2_mono in K. destruct K as [K1 K2]. unfold p2_distance, v2_length, p2_is_closer_to, p2_is_farther_from. cbv zeta. split; [now apply sqrt_mono|]. split; now apply not_lt_le.
Qed.
Lemma dot3_mono {A : arith} (v w : Vector3 (num A)) : (forall d, Le (sabs (vcoord3 v d)) (sabs (vcoord3 w d))) -> Le (v3_dot v v) (v3_dot w w) /\ Le szero (v3_dot v v).
Proof.
  intros H. unfold v3_dot. pose proof (H D3X) as Hx. pose proof (H D3Y) as Hy. pose proof (H D3Z) as Hz. cbn in *.
  pose proof (sum_mono _ _ _ _ (sq_nn _ _ Hx) (sq_mono _ _ Hx) (sq_nn _ _ Hy) (sq_mono _ _ Hy)) as S1.
  first [exact S1 | exact (sum_mono _ _ _ _ (proj2 S1) (proj1 S1) (sq_nn _ _ Hz) (sq_mono _ _ Hz))].
Qed.
Lemma pdist3_mono {A : arith} (p q r : Point3 (num A)) : (forall d, Le (sabs (ssub (coord3 q d) (coord3 p d))) (sabs (ssub (coord3 r d) (coord3 p d)))) ->
  Le (p3_distance p q) (p3_distance p r) /\ p3_is_closer_to p r q = false /\ p3_is_farther_from p q r = false.
Proof.
  intros H. assert (K : forall d, Le (sabs (vcoord3 (p3_sub q p) d)) (sabs (vcoord3 (p3_sub r p) d))) by (intros d; specialize (H d); destruct d; exact H).
  apply dot3_mono in K. destruct K as [K1 K2]. unfold p3_distance, v3_length, p3_is_closer_to, p3_is_farther_from. cbv zeta. split; [now apply sqrt_mono|]. split; now apply not_lt_le.
Qed.
Lemma C70_length_monotone_2d_pf : forall (A : arith) (v w : Vector2 (num A)), (forall d, Le (sabs (vcoord2 v d)) (sabs (vcoord2 w d))) ->
  Le (v2_length v) (v2_length w) /\ v2_is_shorter_than w v = false /\ v2_is_longer_than v w = false.
Proof.
  intros A v w H. apply dot2_mono in H. destruct H as [K1 K2]. unfold v2_length, v2_is_shorter_than, v2_is_longer_than. split; [now apply sqrt_mono|]. split; now apply not_lt_le.
Qed.
Lemma C70_length_monotone_3d_pf : forall (A : arith) (v w : Vector3 (num A)), (forall d, Le (sabs (vcoord3 v d)) (sabs (vcoord3 w d))) ->
  Le (v3_length v) (v3_length w) /\ v3_is_shorter_than w v = false /\ v3_is_longer_than v w = false.
Proof.
  intros A v w H. apply dot3_mono in H. destruct H as [K1 K2]. unfold v3_length, v3_is_shorter_than, v3_is_longer_than. split; [now apply sqrt_mono|]. split; now apply not_lt_le.
Qed.
Lemma C70_distance_monotone_2d_pf : forall (A : arith) (p q r : Point2 (num A)), Finite2 p ->
  (forall d, Le (coord2 p d) (coord2 q d) /\ Le (coord2 q d) (coord2 r d) \/ Le (coord2 r d) (coord2 q d) /\ Le (coord2 q d) (coord2 p d)) ->
  Le (p2_distance p q) (p2_distance p r) /\ p2_is_closer_to p r q = false /\ p2_is_farther_from p q r = false.
Proof.
  intros A p q r F H. apply pdist2_mono. intros d. apply absdiff_toward; [apply F | apply H].
Qed.
Lemma C70_distance_monotone_3d_pf : forall (A : arith) (p q r : Point3 (num A)), Finite3 p ->
  (forall d, Le (coord3 p d) (coord3 q d) /\ Le (coord3 q d) (coord3 r d) \/ Le (coord3 r d) (coord3 q d) /\ Le (coord3 q d) (coord3 p d)) ->
  Le (p3_distance p q) (p3_distance p r) /\ p3_is_closer_to p r q = false /\ p3_is_farther_from p q r = false.
Proof.
  intros A p q r F H. apply pdist3_mono. intros d. apply absdiff_toward; [apply F | apply H].
Qed.
Definition Cidx {A : arith} (lo hi q p : num A) (b : bool) : Prop := Le (sabs (ssub q p)) (sabs (ssub (if b then hi else lo) p)).
Lemma Cidx_ex {A : arith} (lo hi q p : num A) : Finite p -> Le lo q -> Le q hi -> exists b, Cidx lo hi q p b.
Proof. intros F H1 H2. destruct (absdiff_between lo q hi p F H1 H2); [exists true | exists false]; assumption. Qed.
Lemma C70_farthest_point_is_a_corner_2d_pf : forall (A : arith) (prof : profile) (b : BoundingBox2 (num A)) (p q : Point2 (num A)), Finite2 p -> bb2_is_inside b q = true ->
  exists i c, (i < 4)%N /\ bb2_corner prof b i = Ret c /\ Le (p2_distance p q) (p2_distance p c) /\ p2_is_closer_to p c q = false.
Proof.
  intros A prof b p q F I. apply bb2_is_inside_iff in I. destruct I as [L H].
  destruct (Cidx_ex _ _ _ _ (F D2X) (L D2X) (H D2X)) as [bx Hx]. destruct (Cidx_ex _ _ _ _ (F D2Y) (L D2Y) (H D2Y)) as [by_ Hy].
  exists ((if bx then 1 else 0) + (if by_ then 2 else 0))%N. exists (mkPoint2 (if bx then p2x (bb2_max b) else p2x (bb2_min b)) (if by_ then p2y (bb2_max b) else p2y (bb2_min b))). split; [destruct bx, by_; reflexivity|].
  split; [unfold bb2_corner, debug_assert; destruct prof as [[] []], bx, by_; reflexivity|].
  edestruct (pdist2_mono p q) as (K1 & K2 & _); [|split; [exact K1 | exact K2]].
  intros []; destruct bx, by_; assumption.
Qed.
Lemma C70_farthest_point_is_a_corner_3d_pf : forall (A : arith) (prof : profile) (b : BoundingBox3 (num A)) (p q : Point3 (num A)), Finite3 p -> bb3_is_inside b q = true ->
  exists i c, (i < 8)%N /\ bb3_corner prof b i = Ret c /\ Le (p3_distance p q) (p3_distance p c) /\ p3_is_closer_to p c q = false.
Proof.
  intros A prof b p q F I. apply bb3_is_inside_iff in I. destruct I as [L H].
  destruct (Cidx_ex _ _ _ _ (F D3X) (L D3X) (H D3X)) as [bx Hx]. destruct (Cidx_ex _ _ _ _ (F D3Y) (L D3Y) (H D3Y)) as [by_ Hy]. destruct (Cidx_ex _ _ _ _ (F D3Z) (L D3Z) (H D3Z)) as [bz Hz].
  exists ((if bx then 1 else 0) + (if by_ then 2 else 0) + (if bz then 4 else 0))%N. exists (mkPoint3 (if bx then p3x (bb3_max b) else p3x (bb3_min b)) (if by_ then p3y (bb3_max b) else p3y (bb3_min b)) (if bz then p3z (bb3_max b) else p3z (bb3_min b))). split; [destruct bx, by_, bz; reflexivity|].
  split; [unfold bb3_corner, debug_assert; destruct prof as [[] []], bx, by_, bz; reflexivity|].
  edestruct (pdist3_mono p q) as (K1 & K2 & _); [|split; [exact K1 | exact K2]].
  intros []; destruct bx, by_, bz; assumption.
Qed.
