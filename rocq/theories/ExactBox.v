(** Proofs of the exact-arithmetic properties of boxes: ray intersection, centre, areas. *)
From Coq Require Import Bool NArith ZArith Reals List Lra Lia Psatz.
From Flocq Require Import Core.Raux.
From Verif Require Import Scalar Types Vector2 Vector3 Point2 Point3 Ray BoundingBox2 BoundingBox3
  XReal OrdLaws Arith SpecOrder SpecStruct SpecReal SpecBox XTac ExactBase ExactVec OrderProofs OrderBox.
Import ListNotations.
Local Open Scope R_scope.
Lemma xle_iff2_inside (b : BoundingBox2 R) (p : Point2 R) : bb2_is_inside (XB2 b) (XP2 p) = true <-> Rin2 p b.
Proof.
  unfold bb2_is_inside, Rin2. cbn [sle xreal_ops XB2 XP2 bb2_min bb2_max p2x p2y p3x p3y p3z].
  rewrite !andb_true_iff, !xle_fin. tauto.
Qed.
Lemma xr2_at r t : r2_at (XR2 r) (Fin t) = XP2 (Rat2 r t).
Proof. destruct r as [o d]. destruct o, d. unfold Rat2. xcbv. cbn. xeqs; ring. Qed.
Lemma xle_iff3_inside (b : BoundingBox3 R) (p : Point3 R) : bb3_is_inside (XB3 b) (XP3 p) = true <-> Rin3 p b.
Proof.
  unfold bb3_is_inside, Rin3. cbn [sle xreal_ops XB3 XP3 bb3_min bb3_max p2x p2y p3x p3y p3z].
  rewrite !andb_true_iff, !xle_fin. tauto.
Qed.
Lemma xr3_at r t : r3_at (XR3 r) (Fin t) = XP3 (Rat3 r t).
Proof. destruct r as [o d]. destruct o, d. unfold Rat3. xcbv. cbn. xeqs; ring. Qed.
(* entry and exit parameters of one slab *)
Definition slab_near (o d lo hi : R) : xreal := xmin (xdiv (Fin (lo - o)) (Fin d)) (xdiv (Fin (hi - o)) (Fin d)).
Definition slab_far (o d lo hi : R) : xreal := xmax (xdiv (Fin (lo - o)) (Fin d)) (xdiv (Fin (hi - o)) (Fin d)).
Lemma div_le_iff a d t : 0 < d -> (a / d <= t <-> a <= t * d).
Proof.
  intros H. split; intros K.
  - apply (Rmult_le_compat_r d) in K; [|lra]. replace (a / d * d) with a in K by (field; lra). exact K.
  - apply (Rmult_le_reg_r d); [lra|]. replace (a / d * d) with a by (field; lra). exact K.
Qed.
Lemma le_div_iff a d t : 0 < d -> (t <= a / d <-> t * d <= a).
Proof.
  intros H. split; intros K.
  - apply (Rmult_le_compat_r d) in K; [|lra]. replace (a / d * d) with a in K by (field; lra). exact K.
  - apply (Rmult_le_reg_r d); [lra|]. replace (a / d * d) with a by (field; lra). exact K.
Qed.
Lemma div_neg_swap a d : a / - d = - a / d.
Proof. unfold Rdiv. rewrite Rinv_opp. ring. Qed.
Lemma div_mono a b d : 0 < d -> a <= b -> a / d <= b / d.
Proof. intros. apply Rmult_le_compat_r; [|lra]. left. now apply Rinv_0_lt_compat. Qed.
Lemma xmin_fin a b : xmin (Fin a) (Fin b) = Fin (Rmin a b).
Proof. unfold xmin, Rmin. cbn. destruct (Rle_bool_spec a b), (Rle_dec a b); try reflexivity; lra. Qed.
Lemma xmax_fin a b : xmax (Fin a) (Fin b) = Fin (Rmax a b).
Proof. unfold xmax, Rmax. cbn. destruct (Rle_bool_spec a b), (Rle_dec a b); try reflexivity; lra. Qed.
Lemma signed_inf_pos a : 0 < a -> xsigned_inf a = PInf.
Proof. intros H. unfold xsigned_inf. now rewrite Rlt_bool_true. Qed.
Lemma signed_inf_neg a : a < 0 -> xsigned_inf a = NInf.
Proof. intros H. unfold xsigned_inf. rewrite Rlt_bool_false by lra. now rewrite Rlt_bool_true. Qed.
(* a slab is crossed on exactly the interval [near, far] *)
Lemma slab_cases o d lo hi : lo <= hi ->
  (d <> 0 /\ exists n f, slab_near o d lo hi = Fin n /\ slab_far o d lo hi = Fin f /\ n <= f /\
     forall t, slab_seen o d lo hi t <-> n <= t <= f) \/
  (d = 0 /\ slab_near o d lo hi = NInf /\ slab_far o d lo hi = PInf /\ forall t, slab_seen o d lo hi t) \/
  (d = 0 /\ slab_near o d lo hi = PInf /\ slab_far o d lo hi = PInf /\ forall t, ~ slab_seen o d lo hi t) \/
  (d = 0 /\ slab_near o d lo hi = NInf /\ slab_far o d lo hi = NInf /\ forall t, ~ slab_seen o d lo hi t) \/
  (d = 0 /\ slab_near o d lo hi = XNaN /\ slab_far o d lo hi = XNaN /\ forall t, slab_seen o d lo hi t).
Proof.
  intros H. unfold slab_near, slab_far, slab_seen. destruct (Req_dec d 0) as [->|D].
  - right. unfold xdiv. rewrite Req_bool_true by reflexivity.
    assert (Z : forall x, xsigned_inf (x - x) = XNaN). { intros x. unfold xsigned_inf. rewrite !Rlt_bool_false by lra. reflexivity. }
    destruct (total_order_T o lo) as [[L|L]|L], (total_order_T o hi) as [[G|G]|G]; try lra.
    + right. left. rewrite !signed_inf_pos by lra. repeat split; auto. intros t. lra.
    + right. left. rewrite <- L, Z, signed_inf_pos by lra. repeat split; auto. intros t. intros [_ K]. specialize (K eq_refl). lra.
    + right. right. right. rewrite <- L, <- G, !Z. repeat split; auto; lra.
    + left. rewrite signed_inf_neg by lra. rewrite signed_inf_pos by lra. repeat split; auto; lra.
    + right. right. left. rewrite <- G, Z, signed_inf_neg by lra. repeat split; auto. intros t. intros [_ K]. specialize (K eq_refl). lra.
    + right. right. left. rewrite !signed_inf_neg by lra. repeat split; auto. intros t. lra.
  - left. split; [assumption|]. rewrite !xdiv_fin by assumption. rewrite xmin_fin, xmax_fin.
    exists (Rmin ((lo - o) / d) ((hi - o) / d)), (Rmax ((lo - o) / d) ((hi - o) / d)).
    split; [reflexivity|]. split; [reflexivity|].
    destruct (Rlt_le_dec 0 d) as [P|P].
    + assert (M : (lo - o) / d <= (hi - o) / d) by (apply div_mono; lra).
      rewrite Rmin_left, Rmax_right by assumption. split; [assumption|]. intros t. rewrite div_le_iff, le_div_iff by assumption. split; [intros [K _]; lra|intros K; split; lra].
    + assert (Q : 0 < - d) by lra.
      replace ((lo - o) / d) with ((o - lo) / - d) by (rewrite div_neg_swap; unfold Rdiv; f_equal; ring).
      replace ((hi - o) / d) with ((o - hi) / - d) by (rewrite div_neg_swap; unfold Rdiv; f_equal; ring).
      assert (M : (o - hi) / - d <= (o - lo) / - d) by (apply div_mono; lra).
      rewrite Rmin_right, Rmax_left by assumption. split; [assumption|]. intros t. rewrite div_le_iff, le_div_iff by assumption. split; [intros [K _]; lra|intros K; split; lra].
Qed.
(* state of the loop over the axes: the parameters t >= 0 crossing all slabs so far are those in [s, e];
   [e] is finite as soon as one direction component is not zero *)
Definition ray_state (s e : xreal) (Q : R -> Prop) : Prop :=
  (s = PInf /\ e = PInf /\ forall t, 0 <= t -> ~ Q t) \/
  (exists a, s = Fin a /\ 0 <= a /\ (e = PInf /\ (forall t, 0 <= t -> (Q t <-> a <= t)) \/ exists b, e = Fin b /\ forall t, 0 <= t -> (Q t <-> a <= t <= b))) \/
  (xlt e s = true /\ forall t, 0 <= t -> ~ Q t).
Lemma ray_state0 : ray_state (Fin 0) PInf (fun _ => True).
Proof. right. left. exists 0. repeat split; try lra. left. split; [reflexivity|]. intros. tauto. Qed.
Lemma ray_step s e Q o d lo hi : lo <= hi -> ray_state s e Q ->
  ray_state (xmax s (slab_near o d lo hi)) (xmin e (slab_far o d lo hi)) (fun t => Q t /\ slab_seen o d lo hi t) /\
  (d <> 0 -> xmin e (slab_far o d lo hi) <> PInf) /\ (e <> PInf -> e <> XNaN -> xmin e (slab_far o d lo hi) <> PInf) /\
  (e <> XNaN -> xmin e (slab_far o d lo hi) <> XNaN).
Proof.
  intros H St.
  assert (EN : (d <> 0 -> xmin e (slab_far o d lo hi) <> PInf) /\ (e <> PInf -> e <> XNaN -> xmin e (slab_far o d lo hi) <> PInf) /\ (e <> XNaN -> xmin e (slab_far o d lo hi) <> XNaN)).
  { destruct (slab_cases o d lo hi H) as [(D & n & f & _ & -> & _) | [(D & _ & -> & _) | [(D & _ & -> & _) | [(D & _ & -> & _) | (D & _ & -> & _)]]]];
      (split; [intros X|split; [intros Y Z|intros Y]]); destruct e; unfold xmin; cbn; try congruence; try destruct Rle_bool; try congruence; try contradiction. }
  split; [|exact EN]. clear EN.
  destruct (slab_cases o d lo hi H) as [(D & n & f & -> & -> & NF & E) | [(D & -> & -> & E) | [(D & -> & -> & E) | [(D & -> & -> & E) | (D & -> & -> & E)]]]].
  - destruct St as [(-> & -> & N) | [(a & -> & A & [(-> & N) | (b & -> & N)]) | (L & N)]].
    + right. right. split; [reflexivity|]. intros t Ht [K _]. exact (N t Ht K).
    + rewrite xmax_fin. unfold xmin; cbn. unfold Rmax. destruct (Rle_dec a n) as [K|K].
      * right. left. exists n. split; [reflexivity|]. split; [lra|]. right. exists f. split; [reflexivity|]. intros t Ht. rewrite N, E by assumption. lra.
      * right. left. exists a. split; [reflexivity|]. split; [lra|]. right. exists f. split; [reflexivity|]. intros t Ht. rewrite N, E by assumption. lra.
    + rewrite xmax_fin, xmin_fin. right. left. exists (Rmax a n). split; [reflexivity|]. split; [eapply Rle_trans; [exact A|apply Rmax_l]|].
      right. exists (Rmin b f). split; [reflexivity|]. intros t Ht. rewrite N, E by assumption. unfold Rmax, Rmin. destruct (Rle_dec a n), (Rle_dec b f); lra.
    + right. right. split.
      * destruct s as [s| | |], e as [e| | |]; unfold xmax, xmin; cbn in L |- *; try discriminate; try reflexivity;
          repeat (match goal with |- context [Rle_bool ?x ?y] => destruct (Rle_bool_spec x y) end; cbn); try reflexivity; apply Rlt_bool_true;
          match goal with HH : Rlt_bool _ _ = true |- _ => destruct (Rlt_bool_spec e s); [|discriminate] | _ => idtac end; try lra.
      * intros t Ht [K _]. exact (N t Ht K).
  - rename E into E'.
    destruct St as [(-> & -> & N) | [(a & -> & A & [(-> & N) | (b & -> & N)]) | (L & N)]].
    + left. repeat split. intros t Ht [K _]. exact (N t Ht K).
    + right. left. exists a. split; [reflexivity|]. split; [assumption|]. left. split; [reflexivity|]. intros t Ht. specialize (E' t). rewrite N by assumption. tauto.
    + right. left. exists a. split; [reflexivity|]. split; [assumption|]. right. exists b. split; [reflexivity|]. intros t Ht. specialize (E' t). rewrite N by assumption. tauto.
    + right. right. split; [|intros t Ht [K _]; exact (N t Ht K)].
      destruct s, e; cbn in L |- *; try discriminate; try reflexivity; exact L.
  - rename E into E'.
    destruct St as [(-> & -> & N) | [(a & -> & A & [(-> & N) | (b & -> & N)]) | (L & N)]].
    + left. repeat split. intros t Ht [K _]. exact (N t Ht K).
    + left. repeat split. intros t Ht [_ K]. exact (E' t K).
    + right. right. split; [reflexivity|]. intros t Ht [_ K]. exact (E' t K).
    + right. right. split; [|intros t Ht [_ K]; exact (E' t K)].
      destruct s, e; cbn in L |- *; try discriminate; reflexivity.
  - rename E into E'.
    right. right. split; [|intros t Ht [_ K]; exact (E' t K)].
    destruct St as [(-> & -> & N) | [(a & -> & A & [(-> & N) | (b & -> & N)]) | (L & N)]]; try reflexivity.
    destruct s, e; cbn in L |- *; try discriminate; reflexivity.
  - rename E into E'.
    destruct St as [(-> & -> & N) | [(a & -> & A & [(-> & N) | (b & -> & N)]) | (L & N)]].
    + left. repeat split. intros t Ht [K _]. exact (N t Ht K).
    + right. left. exists a. split; [reflexivity|]. split; [assumption|]. left. split; [reflexivity|]. intros t Ht. specialize (E' t). rewrite N by assumption. tauto.
    + right. left. exists a. split; [reflexivity|]. split; [assumption|]. right. exists b. split; [reflexivity|]. intros t Ht. specialize (E' t). rewrite N by assumption. tauto.
    + right. right. split; [|intros t Ht [K _]; exact (N t Ht K)].
      destruct s, e; cbn in L |- *; try discriminate; try reflexivity; exact L.
Qed.
Lemma ray_final s e Q : ray_state s e Q -> e <> PInf -> e <> XNaN ->
  if xle s e then exists a b, s = Fin a /\ e = Fin b /\ 0 <= a <= b /\ forall t, 0 <= t -> (Q t <-> a <= t <= b)
  else forall t, 0 <= t -> ~ Q t.
Proof.
  intros St E1 E2. destruct St as [(-> & -> & N) | [(a & -> & A & [(-> & N) | (b & -> & N)]) | (L & N)]]; try congruence.
  - destruct (xle (Fin a) (Fin b)) eqn:K.
    + apply xle_fin in K. exists a, b. repeat split; auto; try lra; apply N; auto.
    + intros t Ht Qt. apply N in Qt; [|assumption]. assert (a <= b) by lra. apply xle_fin in H. congruence.
  - replace (xle s e) with false; [assumption|]. destruct s, e; cbn in L |- *; try discriminate; try reflexivity.
    destruct (Rlt_bool_spec r0 r); [|discriminate]. symmetry. now apply Rle_bool_false.
Qed.
Lemma ray_early s e Q : ray_state s e Q -> xlt e s = true -> forall t, 0 <= t -> ~ Q t.
Proof.
  intros St L. destruct St as [(-> & -> & N) | [(a & -> & A & [(-> & N) | (b & -> & N)]) | (L' & N)]]; try assumption; try discriminate.
  apply xlt_fin in L. intros t Ht Qt. apply N in Qt; [|assumption]. lra.
Qed.
Lemma ray_spec2 (b : BoundingBox2 R) (r : Ray2 R) : Rordered2 b -> r2_direction r <> Rzero2 ->
  match bb2_intersect_ray (XB2 b) (XR2 r) with
  | None => forall t, 0 <= t -> ~ seen2 b r t
  | Some (s, e) => exists s' e', s = Fin s' /\ e = Fin e' /\ 0 <= s' <= e' /\ forall t, 0 <= t -> (seen2 b r t <-> s' <= t <= e')
  end.
Proof.
  destruct b as [[x1 y1] [x2 y2]], r as [[ox oy] [dx dy]]. unfold Rordered2. cbn [bb2_min bb2_max r2_origin r2_direction p2x p2y v2x v2y].
  intros [Hx Hy] Nz.
  unfold bb2_intersect_ray. cbn [XB2 XR2 XP2 XV2 bb2_min bb2_max r2_origin r2_direction p2x p2y v2x v2y].
  change ((Fin x1 - Fin ox)%s) with (Fin (x1 - ox)). change ((Fin x2 - Fin ox)%s) with (Fin (x2 - ox)).
  change ((Fin y1 - Fin oy)%s) with (Fin (y1 - oy)). change ((Fin y2 - Fin oy)%s) with (Fin (y2 - oy)).
  cbn [szero sinf xreal_ops sdiv s_max s_min sfmax sfmin slt sle]. unfold s_max, s_min. cbn [sfmax sfmin xreal_ops].
  fold (slab_near ox dx x1 x2) (slab_far ox dx x1 x2) (slab_near oy dy y1 y2) (slab_far oy dy y1 y2).
  destruct (ray_step (Fin 0) PInf (fun _ => True) ox dx x1 x2 Hx ray_state0) as (S1 & F1 & _ & N1).
  assert (N1' := N1 ltac:(discriminate)). clear N1.
  set (s1 := xmax (Fin 0) (slab_near ox dx x1 x2)) in *. set (e1 := xmin PInf (slab_far ox dx x1 x2)) in *. clearbody s1 e1.
  destruct (xlt e1 s1) eqn:L1.
  - intros t Ht K. eapply (ray_early _ _ _ S1 L1 t Ht). unfold seen2 in K. cbn in K. tauto.
  - destruct (ray_step _ _ _ oy dy y1 y2 Hy S1) as (S2 & F2 & G2 & N2). specialize (N2 N1').
    assert (P2 : xmin e1 (slab_far oy dy y1 y2) <> PInf).
    { destruct (Req_dec dx 0) as [->|D]; [|apply G2; auto]. apply F2. intros ->. now apply Nz. }
    pose proof (ray_final _ _ _ S2 P2 N2) as R. destruct xle.
    + destruct R as (a & b & -> & -> & AB & E). exists a, b. split; [reflexivity|]. split; [reflexivity|]. split; [exact AB|]. intros t Ht. rewrite <- (E t Ht). unfold seen2. cbn. tauto.
    + intros t Ht K. apply (R t Ht). unfold seen2 in K. cbn in K. tauto.
Qed.
Lemma ray_spec3 (b : BoundingBox3 R) (r : Ray3 R) : Rordered3 b -> r3_direction r <> Rzero3 ->
  match bb3_intersect_ray (XB3 b) (XR3 r) with
  | None => forall t, 0 <= t -> ~ seen3 b r t
  | Some (s, e) => exists s' e', s = Fin s' /\ e = Fin e' /\ 0 <= s' <= e' /\ forall t, 0 <= t -> (seen3 b r t <-> s' <= t <= e')
  end.
Proof.
  destruct b as [[x1 y1 z1] [x2 y2 z2]], r as [[ox oy oz] [dx dy dz]]. unfold Rordered3. cbn [bb3_min bb3_max r3_origin r3_direction p3x p3y p3z v3x v3y v3z].
  intros (Hx & Hy & Hz) Nz.
  unfold bb3_intersect_ray. cbn [XB3 XR3 XP3 XV3 bb3_min bb3_max r3_origin r3_direction p3x p3y p3z v3x v3y v3z].
  change ((Fin x1 - Fin ox)%s) with (Fin (x1 - ox)). change ((Fin x2 - Fin ox)%s) with (Fin (x2 - ox)).
  change ((Fin y1 - Fin oy)%s) with (Fin (y1 - oy)). change ((Fin y2 - Fin oy)%s) with (Fin (y2 - oy)).
  change ((Fin z1 - Fin oz)%s) with (Fin (z1 - oz)). change ((Fin z2 - Fin oz)%s) with (Fin (z2 - oz)).
  cbn [szero sinf xreal_ops sdiv s_max s_min sfmax sfmin slt sle]. unfold s_max, s_min. cbn [sfmax sfmin xreal_ops].
  fold (slab_near ox dx x1 x2) (slab_far ox dx x1 x2) (slab_near oy dy y1 y2) (slab_far oy dy y1 y2) (slab_near oz dz z1 z2) (slab_far oz dz z1 z2).
  destruct (ray_step (Fin 0) PInf (fun _ => True) ox dx x1 x2 Hx ray_state0) as (S1 & F1 & _ & N1).
  assert (N1' := N1 ltac:(discriminate)). clear N1.
  set (s1 := xmax (Fin 0) (slab_near ox dx x1 x2)) in *. set (e1 := xmin PInf (slab_far ox dx x1 x2)) in *. clearbody s1 e1.
  destruct (xlt e1 s1) eqn:L1.
  - intros t Ht K. eapply (ray_early _ _ _ S1 L1 t Ht). unfold seen3 in K. cbn in K. tauto.
  - destruct (ray_step _ _ _ oy dy y1 y2 Hy S1) as (S2 & F2 & G2 & N2). specialize (N2 N1').
    assert (P2 : dx <> 0 \/ dy <> 0 -> xmin e1 (slab_far oy dy y1 y2) <> PInf).
    { destruct (Req_dec dx 0) as [->|D]; [|intros _; apply G2; auto]. intros [Z|Z]; [congruence|]. now apply F2. }
    set (s2 := xmax s1 (slab_near oy dy y1 y2)) in *. set (e2 := xmin e1 (slab_far oy dy y1 y2)) in *. clearbody s2 e2.
    destruct (xlt e2 s2) eqn:L2.
    + intros t Ht K. eapply (ray_early _ _ _ S2 L2 t Ht). unfold seen3 in K. cbn in K. tauto.
    + destruct (ray_step _ _ _ oz dz z1 z2 Hz S2) as (S3 & F3 & G3 & N3). specialize (N3 N2).
      assert (P3 : xmin e2 (slab_far oz dz z1 z2) <> PInf).
      { destruct (Req_dec dx 0) as [->|D]; [|apply G3; auto]. destruct (Req_dec dy 0) as [->|D]; [|apply G3; auto]. apply F3. intros ->. now apply Nz. }
      pose proof (ray_final _ _ _ S3 P3 N3) as R. destruct xle.
      * destruct R as (a & b & -> & -> & AB & E). exists a, b. split; [reflexivity|]. split; [reflexivity|]. split; [exact AB|]. intros t Ht. rewrite <- (E t Ht). unfold seen3. cbn. tauto.
      * intros t Ht K. apply (R t Ht). unfold seen3 in K. cbn in K. tauto.
Qed.
Lemma seen_inside2 b r t : off_faces2 b r -> (seen2 b r t <-> Rin2 (Rat2 r t) b).
Proof.
  unfold off_faces2, seen2, slab_seen, off_plane, Rin2, Rat2. cbn [p2x p2y].
  intros [Hx Hy]. split; [tauto|]. intros [Kx Ky].
  split; (split; [assumption|]); intros Z; left; [destruct (Hx Z)|destruct (Hy Z)]; rewrite Z in *; lra.
Qed.
Lemma seen_sub2 b r t : seen2 b r t -> Rin2 (Rat2 r t) b.
Proof. unfold seen2, slab_seen, Rin2, Rat2. cbn. tauto. Qed.
Lemma seen_inside3 b r t : off_faces3 b r -> (seen3 b r t <-> Rin3 (Rat3 r t) b).
Proof.
  unfold off_faces3, seen3, slab_seen, off_plane, Rin3, Rat3. cbn [p3x p3y p3z].
  intros (Hx & Hy & Hz). split; [tauto|]. intros (Kx & Ky & Kz).
  split; [|split]; (split; [assumption|]); intros Z; left; [destruct (Hx Z)|destruct (Hy Z)|destruct (Hz Z)]; rewrite Z in *; lra.
Qed.
Lemma seen_sub3 b r t : seen3 b r t -> Rin3 (Rat3 r t) b.
Proof. unfold seen3, slab_seen, Rin3, Rat3. cbn. tauto. Qed.
Lemma C16_ray_intersection_2d_pf : forall (b : BoundingBox2 R) (r : Ray2 R), Rordered2 b -> r2_direction r <> Rzero2 -> off_faces2 b r ->
  match bb2_intersect_ray (XB2 b) (XR2 r) with
  | None => forall t : R, 0 <= t -> bb2_is_inside (XB2 b) (r2_at (XR2 r) (Fin t)) = false
  | Some (s, e) => exists s' e' : R, s = Fin s' /\ e = Fin e' /\ 0 <= s' <= e' /\
      forall t : R, 0 <= t -> (bb2_is_inside (XB2 b) (r2_at (XR2 r) (Fin t)) = true <-> s' <= t <= e')
  end.
Proof.
  intros b r H1 H2 H3. pose proof (ray_spec2 b r H1 H2) as K. pose proof (fun t => seen_inside2 b r t H3) as V. destruct bb2_intersect_ray as [[s e]|].
  - destruct K as (s' & e' & -> & -> & L & K). exists s', e'. split; [reflexivity|]. split; [reflexivity|]. split; [exact L|]. intros t Ht. rewrite xr2_at, xle_iff2_inside, <- V. now apply K.
  - intros t Ht. rewrite xr2_at. apply not_true_iff_false. rewrite xle_iff2_inside, <- V. now apply K.
Qed.
Lemma C16_ray_intersection_3d_pf : forall (b : BoundingBox3 R) (r : Ray3 R), Rordered3 b -> r3_direction r <> Rzero3 -> off_faces3 b r ->
  match bb3_intersect_ray (XB3 b) (XR3 r) with
  | None => forall t : R, 0 <= t -> bb3_is_inside (XB3 b) (r3_at (XR3 r) (Fin t)) = false
  | Some (s, e) => exists s' e' : R, s = Fin s' /\ e = Fin e' /\ 0 <= s' <= e' /\
      forall t : R, 0 <= t -> (bb3_is_inside (XB3 b) (r3_at (XR3 r) (Fin t)) = true <-> s' <= t <= e')
  end.
Proof.
  intros b r H1 H2 H3. pose proof (ray_spec3 b r H1 H2) as K. pose proof (fun t => seen_inside3 b r t H3) as V. destruct bb3_intersect_ray as [[s e]|].
  - destruct K as (s' & e' & -> & -> & L & K). exists s', e'. split; [reflexivity|]. split; [reflexivity|]. split; [exact L|]. intros t Ht. rewrite xr3_at, xle_iff3_inside, <- V. now apply K.
  - intros t Ht. rewrite xr3_at. apply not_true_iff_false. rewrite xle_iff3_inside, <- V. now apply K.
Qed.
Lemma C17_what_is_reported_2d_pf : forall (b : BoundingBox2 R) (r : Ray2 R), Rordered2 b -> r2_direction r <> Rzero2 ->
  match bb2_intersect_ray (XB2 b) (XR2 r) with
  | None => forall t : R, 0 <= t -> ~ seen2 b r t
  | Some (s, e) => exists s' e' : R, s = Fin s' /\ e = Fin e' /\ 0 <= s' <= e' /\ (forall t : R, 0 <= t -> (seen2 b r t <-> s' <= t <= e')) /\
      (forall t : R, s' <= t <= e' -> bb2_is_inside (XB2 b) (r2_at (XR2 r) (Fin t)) = true)
  end.
Proof.
  intros b r H1 H2. pose proof (ray_spec2 b r H1 H2) as K. destruct bb2_intersect_ray as [[s e]|]; [|exact K].
  destruct K as (s' & e' & -> & -> & L & K). exists s', e'. split; [reflexivity|]. split; [reflexivity|]. split; [exact L|]. split; [exact K|].
  intros t Ht. rewrite xr2_at, xle_iff2_inside. apply seen_sub2, K; lra.
Qed.
Lemma C17_what_is_reported_3d_pf : forall (b : BoundingBox3 R) (r : Ray3 R), Rordered3 b -> r3_direction r <> Rzero3 ->
  match bb3_intersect_ray (XB3 b) (XR3 r) with
  | None => forall t : R, 0 <= t -> ~ seen3 b r t
  | Some (s, e) => exists s' e' : R, s = Fin s' /\ e = Fin e' /\ 0 <= s' <= e' /\ (forall t : R, 0 <= t -> (seen3 b r t <-> s' <= t <= e')) /\
      (forall t : R, s' <= t <= e' -> bb3_is_inside (XB3 b) (r3_at (XR3 r) (Fin t)) = true)
  end.
Proof.
  intros b r H1 H2. pose proof (ray_spec3 b r H1 H2) as K. destruct bb3_intersect_ray as [[s e]|]; [|exact K].
  destruct K as (s' & e' & -> & -> & L & K). exists s', e'. split; [reflexivity|]. split; [reflexivity|]. split; [exact L|]. split; [exact K|].
  intros t Ht. rewrite xr3_at, xle_iff3_inside. apply seen_sub3, K; lra.
Qed.
Lemma C17_every_face_ray_is_missed_2d_pf : forall (b : BoundingBox2 R) (r : Ray2 R), Rordered2 b -> v2x (r2_direction r) = 0 -> v2y (r2_direction r) <> 0 ->
  p2x (bb2_min b) < p2x (bb2_max b) -> (p2x (r2_origin r) = p2x (bb2_min b) \/ p2x (r2_origin r) = p2x (bb2_max b)) ->
  bb2_intersect_ray (XB2 b) (XR2 r) = None.
Proof.
  intros b r H1 H2 H3 H4 H5. pose proof (ray_spec2 b r H1) as K. destruct bb2_intersect_ray as [[s e]|]; [|reflexivity]. exfalso.
  destruct K as (s' & e' & -> & -> & L & K). { intros Z. apply H3. now rewrite Z. }
  destruct (proj2 (K s' ltac:(lra)) ltac:(lra)) as ([_ X] & _). specialize (X H2). lra.
Qed.
Lemma C17_face_ray_refuted_2d_pf : ~ (forall (b : BoundingBox2 R) (r : Ray2 R), Rordered2 b -> r2_direction r <> Rzero2 ->
   (exists t : R, 0 <= t /\ bb2_is_inside (XB2 b) (r2_at (XR2 r) (Fin t)) = true) -> bb2_intersect_ray (XB2 b) (XR2 r) <> None).
Proof.
  intros H. apply (H (mkBB2 (mkPoint2 0 0) (mkPoint2 1 1)) (mkRay2 (mkPoint2 0 (1/2)) (mkVector2 0 1))).
  - unfold Rordered2. cbn. lra.
  - intros E. injection E. lra.
  - exists 0. split; [lra|]. rewrite xr2_at, xle_iff2_inside. unfold Rin2, Rat2. cbn. lra.
  - apply C17_every_face_ray_is_missed_2d_pf; unfold Rordered2; cbn; lra.
Qed.
Lemma C17_every_face_ray_is_missed_3d_pf : forall (b : BoundingBox3 R) (r : Ray3 R), Rordered3 b -> v3x (r3_direction r) = 0 -> r3_direction r <> Rzero3 ->
  p3x (bb3_min b) < p3x (bb3_max b) -> (p3x (r3_origin r) = p3x (bb3_min b) \/ p3x (r3_origin r) = p3x (bb3_max b)) ->
  bb3_intersect_ray (XB3 b) (XR3 r) = None.
Proof.
  intros b r H1 H2 H3 H4 H5. pose proof (ray_spec3 b r H1 H3) as K. destruct bb3_intersect_ray as [[s e]|]; [|reflexivity]. exfalso.
  destruct K as (s' & e' & -> & -> & L & K).
  destruct (proj2 (K s' ltac:(lra)) ltac:(lra)) as ([_ X] & _). specialize (X H2). lra.
Qed.
Lemma C17_face_ray_refuted_3d_pf : ~ (forall (b : BoundingBox3 R) (r : Ray3 R), Rordered3 b -> r3_direction r <> Rzero3 ->
   (exists t : R, 0 <= t /\ bb3_is_inside (XB3 b) (r3_at (XR3 r) (Fin t)) = true) -> bb3_intersect_ray (XB3 b) (XR3 r) <> None).
Proof.
  intros H. apply (H (mkBB3 (mkPoint3 0 0 0) (mkPoint3 1 1 1)) (mkRay3 (mkPoint3 0 (1/2) (1/2)) (mkVector3 0 1 0))).
  - unfold Rordered3. cbn. lra.
  - intros E. injection E. lra.
  - exists 0. split; [lra|]. rewrite xr3_at, xle_iff3_inside. unfold Rin3, Rat3. cbn. lra.
  - apply C17_every_face_ray_is_missed_3d_pf; unfold Rordered3; cbn; try lra. intros E. injection E. lra.
Qed.
Lemma C13_center_exact_2d_pf : forall b : BoundingBox2 R,
  bb2_center (XB2 b) = XP2 (mkPoint2 ((p2x (bb2_min b) + p2x (bb2_max b)) / 2) ((p2y (bb2_min b) + p2y (bb2_max b)) / 2)) /\
  (Rordered2 b -> bb2_is_inside (XB2 b) (bb2_center (XB2 b)) = true).
Proof.
  intros b. assert (E : bb2_center (XB2 b) = XP2 (mkPoint2 ((p2x (bb2_min b) + p2x (bb2_max b)) / 2) ((p2y (bb2_min b) + p2y (bb2_max b)) / 2))).
  { destruct b as [[] []]. xcbv. xeqs; field. }
  split; [exact E|]. rewrite E. intros H. apply xle_iff2_inside. unfold Rin2, Rordered2 in *. cbn. lra.
Qed.
Lemma C13_center_exact_3d_pf : forall b : BoundingBox3 R,
  bb3_center (XB3 b) = XP3 (mkPoint3 ((p3x (bb3_min b) + p3x (bb3_max b)) / 2) ((p3y (bb3_min b) + p3y (bb3_max b)) / 2) ((p3z (bb3_min b) + p3z (bb3_max b)) / 2)) /\
  (Rordered3 b -> bb3_is_inside (XB3 b) (bb3_center (XB3 b)) = true).
Proof.
  intros b. assert (E : bb3_center (XB3 b) = XP3 (mkPoint3 ((p3x (bb3_min b) + p3x (bb3_max b)) / 2) ((p3y (bb3_min b) + p3y (bb3_max b)) / 2) ((p3z (bb3_min b) + p3z (bb3_max b)) / 2))).
  { destruct b as [[] []]. xcbv. xeqs; field. }
  split; [exact E|]. rewrite E. intros H. apply xle_iff3_inside. unfold Rin3, Rordered3 in *. cbn. lra.
Qed.
Lemma Rsub_box2_corners (a b : BoundingBox2 R) : Rordered2 a -> Rsub_box2 a b -> Rin2 (bb2_min a) b /\ Rin2 (bb2_max a) b.
Proof. intros H S. split; apply S; unfold Rin2, Rordered2 in *; lra. Qed.
Lemma Rsub_box3_corners (a b : BoundingBox3 R) : Rordered3 a -> Rsub_box3 a b -> Rin3 (bb3_min a) b /\ Rin3 (bb3_max a) b.
Proof. intros H S. split; apply S; unfold Rin3, Rordered3 in *; lra. Qed.
Lemma mul_mono a b c d : 0 <= a -> 0 <= c -> a <= b -> c <= d -> 0 <= a * c <= b * d.
Proof. intros. split; [now apply Rmult_le_pos|]. now apply Rmult_le_compat. Qed.
Lemma C15_area_2d_pf : forall a b : BoundingBox2 R,
  bb2_area (XB2 b) = Fin ((p2x (bb2_max b) - p2x (bb2_min b)) * (p2y (bb2_max b) - p2y (bb2_min b))) /\
  (Rordered2 a -> xle (Fin 0) (bb2_area (XB2 a)) = true) /\
  (Rordered2 a -> Rsub_box2 a b -> xle (bb2_area (XB2 a)) (bb2_area (XB2 b)) = true).
Proof.
  intros a b. assert (E : forall b, bb2_area (XB2 b) = Fin ((p2x (bb2_max b) - p2x (bb2_min b)) * (p2y (bb2_max b) - p2y (bb2_min b)))).
  { intros [[] []]. reflexivity. }
  rewrite !E. split; [reflexivity|]. split.
  - intros H. apply xle_fin. unfold Rordered2 in H. apply Rmult_le_pos; lra.
  - intros H S. destruct (Rsub_box2_corners a b H S). unfold Rin2, Rordered2 in *. apply xle_fin. apply mul_mono; lra.
Qed.
Lemma C15_volume_and_surface_3d_pf : forall a b : BoundingBox3 R,
  let w := (fun b => p3x (bb3_max b) - p3x (bb3_min b)) in let h := (fun b => p3y (bb3_max b) - p3y (bb3_min b)) in
  let d := (fun b => p3z (bb3_max b) - p3z (bb3_min b)) in
  bb3_volume (XB3 b) = Fin (w b * h b * d b) /\
  bb3_surface_area (XB3 b) = Fin (2 * (w b * h b + w b * d b + h b * d b)) /\
  (Rordered3 a -> xle (Fin 0) (bb3_volume (XB3 a)) = true /\ xle (Fin 0) (bb3_surface_area (XB3 a)) = true) /\
  (Rordered3 a -> Rsub_box3 a b -> xle (bb3_volume (XB3 a)) (bb3_volume (XB3 b)) = true /\
                                   xle (bb3_surface_area (XB3 a)) (bb3_surface_area (XB3 b)) = true).
Proof.
  intros a b w h d.
  assert (E1 : forall b, bb3_volume (XB3 b) = Fin (w b * h b * d b)) by (intros [[] []]; reflexivity).
  assert (E2 : forall b, bb3_surface_area (XB3 b) = Fin (2 * (w b * h b + w b * d b + h b * d b))) by (intros [[] []]; reflexivity).
  rewrite !E1, !E2. split; [reflexivity|]. split; [reflexivity|].
  assert (M : Rordered3 a -> 0 <= w a /\ 0 <= h a /\ 0 <= d a). { unfold Rordered3, w, h, d. lra. }
  split.
  - intros H. destruct (M H) as (? & ? & ?). assert (0 <= w a * h a) by now apply Rmult_le_pos. assert (0 <= w a * d a) by now apply Rmult_le_pos.
    assert (0 <= h a * d a) by now apply Rmult_le_pos. rewrite !xle_fin. split; [now apply Rmult_le_pos|lra].
  - intros H S. destruct (M H) as (? & ? & ?). destruct (Rsub_box3_corners a b H S).
    assert (w a <= w b /\ h a <= h b /\ d a <= d b). { unfold Rin3, Rordered3, w, h, d in *. lra. }
    clearbody w h d. destruct H4 as (? & ? & ?).
    pose proof (mul_mono (w a) (w b) (h a) (h b)). pose proof (mul_mono (w a) (w b) (d a) (d b)). pose proof (mul_mono (h a) (h b) (d a) (d b)).
    rewrite !xle_fin. split; [|lra]. apply mul_mono; lra.
Qed.
Definition RO2 : Point2 R := mkPoint2 0 0.
Definition RO3 : Point3 R := mkPoint3 0 0 0.
Lemma inf_slab x y (a b : R) (d : R) : xsub x (Fin a) = x -> xsub y (Fin a) = y -> (x = PInf /\ y = NInf \/ x = NInf /\ y = PInf) ->
  xmin (xdiv (xsub x (Fin a)) (Fin d)) (xdiv (xsub y (Fin a)) (Fin d)) = NInf /\ xmax (xdiv (xsub x (Fin a)) (Fin d)) (xdiv (xsub y (Fin a)) (Fin d)) = PInf.
Proof. intros -> -> [[-> ->] | [-> ->]]; cbn; destruct Rlt_bool; split; reflexivity. Qed.
Lemma C19_every_ray_hits_the_empty_box_2d_pf : forall r : Ray2 R, bb2_intersect_ray bb2_empty (XR2 r) = Some (Fin 0, PInf).
Proof.
  intros [[] []]. cbv [bb2_intersect_ray bb2_empty XR2 XP2 XV2 bb2_min bb2_max p2_new r2_origin r2_direction Types.p2x Types.p2y Types.v2x Types.v2y Types.p3x Types.p3y Types.p3z Types.v3x Types.v3y Types.v3z s_min s_max sfmin sfmax slt sle sinf sninf szero sdiv ssub xreal_ops].
  repeat match goal with |- context [xmin (xdiv (xsub PInf (Fin ?a)) (Fin ?d)) _] =>
    destruct (inf_slab PInf NInf a 0 d eq_refl eq_refl (or_introl (conj eq_refl eq_refl))) as [-> ->] end.
  reflexivity.
Qed.
Lemma C19_every_ray_hits_the_empty_box_3d_pf : forall r : Ray3 R, bb3_intersect_ray bb3_empty (XR3 r) = Some (Fin 0, PInf).
Proof.
  intros [[] []]. cbv [bb3_intersect_ray bb3_empty XR3 XP3 XV3 bb3_min bb3_max p3_new r3_origin r3_direction Types.p2x Types.p2y Types.v2x Types.v2y Types.p3x Types.p3y Types.p3z Types.v3x Types.v3y Types.v3z s_min s_max sfmin sfmax slt sle sinf sninf szero sdiv ssub xreal_ops].
  repeat match goal with |- context [xmin (xdiv (xsub PInf (Fin ?a)) (Fin ?d)) _] =>
    destruct (inf_slab PInf NInf a 0 d eq_refl eq_refl (or_introl (conj eq_refl eq_refl))) as [-> ->] end.
  reflexivity.
Qed.
Lemma C19_empty_box_refuted_2d_pf : ~ (forall r : Ray2 R, bb2_intersect_ray bb2_empty (XR2 r) = None).
Proof.
  intros H. specialize (H (mkRay2 RO2 Rzero2)). rewrite C19_every_ray_hits_the_empty_box_2d_pf in H. discriminate.
Qed.
Lemma C19_empty_box_refuted_3d_pf : ~ (forall r : Ray3 R, bb3_intersect_ray bb3_empty (XR3 r) = None).
Proof.
  intros H. specialize (H (mkRay3 RO3 Rzero3)). rewrite C19_every_ray_hits_the_empty_box_3d_pf in H. discriminate.
Qed.
Lemma C19_infinite_box_2d_pf : forall r : Ray2 R, bb2_intersect_ray bb2_infinite (XR2 r) = Some (Fin 0, PInf).
Proof.
  intros [[] []]. cbv [bb2_intersect_ray bb2_infinite XR2 XP2 XV2 bb2_min bb2_max p2_new r2_origin r2_direction Types.p2x Types.p2y Types.v2x Types.v2y Types.p3x Types.p3y Types.p3z Types.v3x Types.v3y Types.v3z s_min s_max sfmin sfmax slt sle sinf sninf szero sdiv ssub xreal_ops].
  repeat match goal with |- context [xmin (xdiv (xsub NInf (Fin ?a)) (Fin ?d)) _] =>
    destruct (inf_slab NInf PInf a 0 d eq_refl eq_refl (or_intror (conj eq_refl eq_refl))) as [-> ->] end.
  reflexivity.
Qed.
Lemma C19_infinite_box_3d_pf : forall r : Ray3 R, bb3_intersect_ray bb3_infinite (XR3 r) = Some (Fin 0, PInf).
Proof.
  intros [[] []]. cbv [bb3_intersect_ray bb3_infinite XR3 XP3 XV3 bb3_min bb3_max p3_new r3_origin r3_direction Types.p2x Types.p2y Types.v2x Types.v2y Types.p3x Types.p3y Types.p3z Types.v3x Types.v3y Types.v3z s_min s_max sfmin sfmax slt sle sinf sninf szero sdiv ssub xreal_ops].
  repeat match goal with |- context [xmin (xdiv (xsub NInf (Fin ?a)) (Fin ?d)) _] =>
    destruct (inf_slab NInf PInf a 0 d eq_refl eq_refl (or_intror (conj eq_refl eq_refl))) as [-> ->] end.
  reflexivity.
Qed.
