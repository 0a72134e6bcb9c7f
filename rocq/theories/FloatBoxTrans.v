(** Proofs: transforming a bounding box in floating point. *)
From Coq Require Import Bool NArith ZArith Reals List Lra Lia Psatz.
From Flocq Require Import Core.Raux.
From Verif Require Import Scalar Types Vector2 Vector3 Point2 Point3 Ray BoundingBox2 BoundingBox3 Transform2 Transform3 Float
  XReal OrdLaws Arith SpecOrder SpecFloat SpecReal SpecErr OrderProofs OrderBox Comm FloatX XArith FloatLaws FloatGeom ErrBase SlabBase FloatTrans FloatErr FloatMono.
Import ListNotations.
Local Open Scope R_scope.
Lemma xmin_ff a b : xmin (Fin a) (Fin b) = Fin (Rmin a b).
Proof. unfold xmin. cbn [xnan xle]. unfold Rmin, Rle_bool. destruct (Rle_dec a b); destruct (Rcompare_spec a b); try reflexivity; lra. Qed.
Lemma xmax_ff a b : xmax (Fin a) (Fin b) = Fin (Rmax a b).
Proof. unfold xmax. cbn [xnan xle]. unfold Rmax, Rle_bool. destruct (Rle_dec a b); destruct (Rcompare_spec a b); try reflexivity; lra. Qed.
(* every way the loop combines o and s, and the final ordering of the two corners *)
Lemma xmm (x y : xreal) : x <> XNaN ->
  (xmin x x = x /\ xmin (xmin x y) x = xmin x y /\ xmin (xmin x y) y = xmin x y /\ xmin (xmin x y) (xmax x y) = xmin x y) /\
  (xmax x x = x /\ xmax (xmax x y) x = xmax x y /\ xmax (xmax x y) y = xmax x y /\ xmax (xmin x y) (xmax x y) = xmax x y).
Proof.
  intros N. destruct x as [o| | |], y as [s| | |]; try congruence;
  [|repeat apply conj; cbn; unfold xmin, xmax; cbn [xnan xle]; rewrite ?Rle_bool_true by lra; cbn [xnan xle]; rewrite ?Rle_bool_true by lra; reflexivity..].
  repeat (rewrite xmin_ff || rewrite xmax_ff).
  unfold Rmin, Rmax. destruct (Rle_dec o s); repeat (destruct (Rle_dec _ _)); repeat apply conj; try reflexivity; try (f_equal; lra).
Qed.
Lemma tbb2_coords {A : arith} (t : Transform2 (num A)) (b : BoundingBox2 (num A)) (d : Dimension2) :
  let p := t2_transform_point t (bb2_min b) in let v := t2_transform_vector t (bb2_diagonal b) in NoNaN (coord2 p d) ->
  let s := sadd (coord2 p d) (vcoord2 v d) in
  tx (coord2 (bb2_min (t2_transform_bb t b)) d) = xmin (tx (coord2 p d)) (tx s) /\ tx (coord2 (bb2_max (t2_transform_bb t b)) d) = xmax (tx (coord2 p d)) (tx s).
Proof.
  cbv zeta. intros N. apply NoNaN_tx in N. unfold t2_transform_bb. set (p := t2_transform_point t (bb2_min b)) in *. set (v := t2_transform_vector t (bb2_diagonal b)) in *. clearbody p v.
  cbn [fold_left N.land N.eqb negb Pos.land Pos.eqb Pos.Ndouble Pos.Nsucc_double]. unfold bb2_new, p2_min, p2_max, p2_new. cbn [p2x p2y bb2_min bb2_max ].
  destruct (xmm (tx (coord2 p d)) (tx (sadd (coord2 p d) (vcoord2 v d))) N) as [(M1 & M2 & M3 & M4) (X1 & X2 & X3 & X4)].
  destruct d; cbn [coord2 vcoord2 p2x p2y ] in *; repeat (rewrite tx_smin || rewrite tx_smax); rewrite ?M1, ?X1; repeat (rewrite M2 || rewrite M3); repeat (rewrite X2 || rewrite X3); rewrite M4, X4; split; reflexivity.
Qed.
Lemma tbb3_coords {A : arith} (t : Transform3 (num A)) (b : BoundingBox3 (num A)) (d : Dimension3) :
  let p := t3_transform_point t (bb3_min b) in let v := t3_transform_vector t (bb3_diagonal b) in NoNaN (coord3 p d) ->
  let s := sadd (coord3 p d) (vcoord3 v d) in
  tx (coord3 (bb3_min (t3_transform_bb t b)) d) = xmin (tx (coord3 p d)) (tx s) /\ tx (coord3 (bb3_max (t3_transform_bb t b)) d) = xmax (tx (coord3 p d)) (tx s).
Proof.
  cbv zeta. intros N. apply NoNaN_tx in N. unfold t3_transform_bb. set (p := t3_transform_point t (bb3_min b)) in *. set (v := t3_transform_vector t (bb3_diagonal b)) in *. clearbody p v.
  cbn [fold_left N.land N.eqb negb Pos.land Pos.eqb Pos.Ndouble Pos.Nsucc_double]. unfold bb3_new, p3_min, p3_max, p3_new. cbn [p3x p3y bb3_min bb3_max p3z].
  destruct (xmm (tx (coord3 p d)) (tx (sadd (coord3 p d) (vcoord3 v d))) N) as [(M1 & M2 & M3 & M4) (X1 & X2 & X3 & X4)].
  destruct d; cbn [coord3 vcoord3 p3x p3y p3z] in *; repeat (rewrite tx_smin || rewrite tx_smax); rewrite ?M1, ?X1; repeat (rewrite M2 || rewrite M3); repeat (rewrite X2 || rewrite X3); rewrite M4, X4; split; reflexivity.
Qed.
Lemma C71_minimum_corner_inside_2d_pf : forall (A : arith) (t : Transform2 (num A)) (b : BoundingBox2 (num A)), NoNaN2 (t2_transform_point t (bb2_min b)) ->
  bb2_is_inside (t2_transform_bb t b) (t2_transform_point t (bb2_min b)) = true.
Proof.
  intros A t b N. apply bb2_is_inside_iff. split; intros d; destruct (tbb2_coords t b d (N d)) as [E1 E2]; apply Le_tx; rewrite ?E1, ?E2;
  pose proof (proj1 (NoNaN_tx _) (N d)) as K; destruct (tx (coord2 (t2_transform_point t (bb2_min b)) d)) as [o| | |]; destruct (tx (sadd _ _)) as [s| | |]; try congruence;
  unfold xmin, xmax; cbn [xnan xle]; try (destruct (Rle_bool_spec o s)); cbn [xle]; try (apply Rle_bool_true; lra); reflexivity.
Qed.
Lemma C71_minimum_corner_inside_3d_pf : forall (A : arith) (t : Transform3 (num A)) (b : BoundingBox3 (num A)), NoNaN3 (t3_transform_point t (bb3_min b)) ->
  bb3_is_inside (t3_transform_bb t b) (t3_transform_point t (bb3_min b)) = true.
Proof.
  intros A t b N. apply bb3_is_inside_iff. split; intros d; destruct (tbb3_coords t b d (N d)) as [E1 E2]; apply Le_tx; rewrite ?E1, ?E2;
  pose proof (proj1 (NoNaN_tx _) (N d)) as K; destruct (tx (coord3 (t3_transform_point t (bb3_min b)) d)) as [o| | |]; destruct (tx (sadd _ _)) as [s| | |]; try congruence;
  unfold xmin, xmax; cbn [xnan xle]; try (destruct (Rle_bool_spec o s)); cbn [xle]; try (apply Rle_bool_true; lra); reflexivity.
Qed.
Lemma err_min a b a' b' e : Rabs (a - a') <= e -> Rabs (b - b') <= e -> Rabs (Rmin a b - Rmin a' b') <= e.
Proof. intros H1 H2. apply Rabs_le. apply Rabs_le_inv in H1, H2. unfold Rmin. destruct (Rle_dec a b), (Rle_dec a' b'); lra. Qed.
Lemma err_max a b a' b' e : Rabs (a - a') <= e -> Rabs (b - b') <= e -> Rabs (Rmax a b - Rmax a' b') <= e.
Proof. intros H1 H2. apply Rabs_le. apply Rabs_le_inv in H1, H2. unfold Rmax. destruct (Rle_dec a b), (Rle_dec a' b'); lra. Qed.
Ltac absprods := repeat match goal with |- context [Rabs ?x * Rabs ?y] => lazymatch goal with H : 0 <= Rabs x * Rabs y |- _ => fail | _ => pose proof (Rmult_le_pos _ _ (Rabs_pos x) (Rabs_pos y)) end
  | |- context [Rabs ?x] => lazymatch goal with H : 0 <= Rabs x |- _ => fail | _ => pose proof (Rabs_pos x) end end.
Section R.
Context {A : arith}.
Notation t := (min_subnormal A). Notation u := (unit_roundoff A).
Lemma Apx_mulsub (a h l : num A) : Finite (smul a (ssub h l)) -> Apx (smul a (ssub h l)) (real_of a * (real_of h - real_of l)) (Rabs (real_of a) * (Rabs (real_of h) + Rabs (real_of l))) 2 (t / 2).
Proof.
  intros F. replace (t / 2) with (0 * (Rabs (real_of h) + Rabs (real_of l)) + (0 + 0) * Rabs (real_of a) + 0 * (0 + 0) + t / 2) by lra.
  apply (Apx_mul a (ssub h l) _ _ _ _ 0 1); [exact F | apply Apx_leaf|]. intros F'. apply Apx_sub; [exact F' | apply Apx_leaf..].
Qed.
Lemma Apx_row2 (a h l b h' l' : num A) : let s := sadd (smul a (ssub h l)) (smul b (ssub h' l')) in Finite s ->
  Apx s (real_of a * (real_of h - real_of l) + real_of b * (real_of h' - real_of l')) (Rabs (real_of a) * (Rabs (real_of h) + Rabs (real_of l)) + Rabs (real_of b) * (Rabs (real_of h') + Rabs (real_of l'))) 3 t.
Proof. intros s F. replace t with (t / 2 + t / 2) by lra. apply Apx_add; [exact F | apply Apx_mulsub..]. Qed.
Lemma Apx_row3 (a h l b h' l' c h'' l'' : num A) : let s := sadd (sadd (smul a (ssub h l)) (smul b (ssub h' l'))) (smul c (ssub h'' l'')) in Finite s ->
  Apx s (real_of a * (real_of h - real_of l) + real_of b * (real_of h' - real_of l') + real_of c * (real_of h'' - real_of l''))
    (Rabs (real_of a) * (Rabs (real_of h) + Rabs (real_of l)) + Rabs (real_of b) * (Rabs (real_of h') + Rabs (real_of l')) + Rabs (real_of c) * (Rabs (real_of h'') + Rabs (real_of l''))) 4 (3 * t / 2).
Proof.
  intros s F. replace (3 * t / 2) with (t + t / 2) by lra. apply Apx_add; [exact F | apply Apx_row2|].
  intros F'. apply Apx_weaken with 2%nat (t / 2); [now apply Apx_mulsub | lia | lra].
Qed.
Lemma Apx_bound_w (x : num A) r m n e n' k W : (n <= n')%nat -> (n' <= 8)%nat -> Apx x r m n e -> 2 * e <= k -> m <= W -> Rabs (real_of x - r) <= ((1 + u) ^ n' - 1) * W + k.
Proof.
  intros N N' H K M. eapply Rle_trans; [apply (Apx_bound x r m n' e k N'); [eapply Apx_weaken; [exact H | exact N | lra] | exact K]|].
  apply Rplus_le_compat_r. apply Rmult_le_compat_l; [|exact M]. pose proof (@G_ge1 A n'). lra.
Qed.
(* the coordinate range of the transformed box is spanned by o and o + v *)
Lemma span_fin (o v mn mx : num A) : Finite o -> Finite v -> Finite mn -> Finite mx -> tx mn = xmin (tx o) (tx (sadd o v)) -> tx mx = xmax (tx o) (tx (sadd o v)) ->
  Finite (sadd o v) /\ real_of mn = Rmin (real_of o) (real_of (sadd o v)) /\ real_of mx = Rmax (real_of o) (real_of (sadd o v)).
Proof.
  intros Fo Fv Fmn Fmx E1 E2. assert (F : Finite (sadd o v)).
  { pose proof (add_finite_NoNaN o v Fo Fv) as N. apply NoNaN_tx in N. rewrite Finite_tx in Fo, Fmn, Fmx |- *. destruct Fo as [ro Eo], Fmn as [rn En], Fmx as [rx Ex].
    rewrite Eo in E1, E2. destruct (tx (sadd o v)) as [s| | |]; [eauto | cbn in E2; congruence | cbn in E1; congruence | congruence]. }
  split; [exact F|]. rewrite (Finite_real _ Fo), (Finite_real _ F), (Finite_real mn Fmn), xmin_ff in E1. rewrite (Finite_real _ Fo), (Finite_real _ F), (Finite_real mx Fmx), xmax_ff in E2.
  injection E1 as E1. injection E2 as E2. now split.
Qed.
End R.
Lemma C71_faces_accurate_2d_pf : forall (A : arith) (t : Transform2 (num A)) (b : BoundingBox2 (num A)) (d : Dimension2), Affine3x3 (t2_forward t) -> BFinite2 b ->
  Finite2 (t2_transform_point t (bb2_min b)) -> VFinite2 (t2_transform_vector t (bb2_diagonal b)) -> BFinite2 (t2_transform_bb t b) ->
  let M := ent3 (RM3 (t2_forward t)) in let i := dim2_index d in
  let e1 := mat_apply 3 M (hom2 (RP2 (bb2_min b))) i in let e2 := mat_apply 3 M (hom2 (RP2 (bb2_max b))) i in
  let W := 2 * mat_apply 3 (mat_abs M) (hom2 (absP2 (RP2 (bb2_min b)))) i + mat_apply 3 (mat_abs M) (hom2 (absP2 (RP2 (bb2_max b)))) i in
  Rabs (real_of (coord2 (bb2_min (t2_transform_bb t b)) d) - Rmin e1 e2) <= ((1 + unit_roundoff A) ^ 4 - 1) * W + 4 * min_subnormal A /\
  Rabs (real_of (coord2 (bb2_max (t2_transform_bb t b)) d) - Rmax e1 e2) <= ((1 + unit_roundoff A) ^ 4 - 1) * W + 4 * min_subnormal A.
Proof.
  intros A t b d Af [Fmin Fmax] Fo Fv [Fbn Fbx]. cbv zeta. pose proof (Affine3_w _ _ Af Fmin) as W1.
  destruct (tbb2_coords t b d (finite_NoNaN _ (Fo d))) as [E1 E2].
  destruct (span_fin _ _ _ _ (Fo d) (Fv d) (Fbn d) (Fbx d) E1 E2) as (Fs & -> & ->). clear E1 E2 Fbn Fbx.
  pose proof (t_pos (A:=A)) as T0.
  specialize (Fo d). specialize (Fv d).
  unfold t2_transform_point, t2_transform_vector in *. set (m := t2_forward t) in *. clearbody m.
  destruct d; cbn [coord2 vcoord2 m3_mul_point m3_mul_vector bb2_diagonal p2_sub v2_new p2_new p2x p2y v2x v2y] in *; unfold mat_apply, mat_abs; cbn -[pow Rmin Rmax]; rewrite !Rplus_0_l, !Rmult_1_r;
  (match type of Fo with Finite (sdiv ?x ?w) => pose proof (div_1 x w W1) as Q; pose proof (Apx_eq _ _ _ _ _ _ Q (Apx_plus _ _ _ _ _ _ (proj1 (proj1 (real_of_eq _ _ Q)) Fo) (Apx_dot2 _ _ _ _))) as Ao end;
   pose proof (Apx_row2 _ _ _ _ _ _ Fv) as Av;
   pose proof (Apx_add _ _ _ _ _ _ _ _ _ Fs (fun _ => Ao) (fun _ => Av)) as As;
   (split; [apply err_min | apply err_max]);
   match goal with
   | |- Rabs (real_of (sadd _ _) - ?e) <= _ => match type of As with Apx _ ?r _ _ _ => replace e with r by ring end; eapply Apx_bound_w; [| |exact As| |]; [lia | lia | lra |]
   | _ => eapply Apx_bound_w; [| |exact Ao| |]; [lia | lia | lra |]
   end;
   absprods; nra).
Qed.
Lemma C71_faces_accurate_3d_pf : forall (A : arith) (t : Transform3 (num A)) (b : BoundingBox3 (num A)) (d : Dimension3), Affine4x4 (t3_forward t) -> BFinite3 b ->
  Finite3 (t3_transform_point t (bb3_min b)) -> VFinite3 (t3_transform_vector t (bb3_diagonal b)) -> BFinite3 (t3_transform_bb t b) ->
  let M := ent4 (RM4 (t3_forward t)) in let i := dim3_index d in
  let e1 := mat_apply 4 M (hom3 (RP3 (bb3_min b))) i in let e2 := mat_apply 4 M (hom3 (RP3 (bb3_max b))) i in
  let W := 2 * mat_apply 4 (mat_abs M) (hom3 (absP3 (RP3 (bb3_min b)))) i + mat_apply 4 (mat_abs M) (hom3 (absP3 (RP3 (bb3_max b)))) i in
  Rabs (real_of (coord3 (bb3_min (t3_transform_bb t b)) d) - Rmin e1 e2) <= ((1 + unit_roundoff A) ^ 5 - 1) * W + 6 * min_subnormal A /\
  Rabs (real_of (coord3 (bb3_max (t3_transform_bb t b)) d) - Rmax e1 e2) <= ((1 + unit_roundoff A) ^ 5 - 1) * W + 6 * min_subnormal A.
Proof.
  intros A t b d Af [Fmin Fmax] Fo Fv [Fbn Fbx]. cbv zeta. pose proof (Affine4_w _ _ Af Fmin) as W1.
  destruct (tbb3_coords t b d (finite_NoNaN _ (Fo d))) as [E1 E2].
  destruct (span_fin _ _ _ _ (Fo d) (Fv d) (Fbn d) (Fbx d) E1 E2) as (Fs & -> & ->). clear E1 E2 Fbn Fbx.
  pose proof (t_pos (A:=A)) as T0.
  specialize (Fo d). specialize (Fv d).
  unfold t3_transform_point, t3_transform_vector in *. set (m := t3_forward t) in *. clearbody m.
  destruct d; cbn [coord3 vcoord3 m4_mul_point m4_mul_vector bb3_diagonal p3_sub v3_new p3_new p3x p3y p3z v3x v3y v3z] in *; unfold mat_apply, mat_abs; cbn -[pow Rmin Rmax]; rewrite !Rplus_0_l, !Rmult_1_r;
  (match type of Fo with Finite (sdiv ?x ?w) => pose proof (div_1 x w W1) as Q; pose proof (Apx_eq _ _ _ _ _ _ Q (Apx_plus _ _ _ _ _ _ (proj1 (proj1 (real_of_eq _ _ Q)) Fo) (Apx_dot3 _ _ _ _ _ _))) as Ao end;
   pose proof (Apx_row3 _ _ _ _ _ _ _ _ _ Fv) as Av;
   pose proof (Apx_add _ _ _ _ _ _ _ _ _ Fs (fun _ => Ao) (fun _ => Av)) as As;
   (split; [apply err_min | apply err_max]);
   match goal with
   | |- Rabs (real_of (sadd _ _) - ?e) <= _ => match type of As with Apx _ ?r _ _ _ => replace e with r by ring end; eapply Apx_bound_w; [| |exact As| |]; [lia | lia | lra |]
   | _ => eapply Apx_bound_w; [| |exact Ao| |]; [lia | lia | lra |]
   end;
   absprods; nra).
Qed.
