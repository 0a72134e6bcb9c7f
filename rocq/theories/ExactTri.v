(** Proofs: intersecting a ray with a triangle (C122). *)
From Coq Require Import Bool NArith ZArith Reals List Lra Lia Psatz.
From Verif Require Import Scalar Types Vector2 Vector3 Point2 Point3 Ray BoundingBox2 BoundingBox3 Transform2 Transform3
  XReal OrdLaws Arith SpecOrder SpecReal SpecBox SpecTri XTac ExactBase ExactVec ExactBox ExactTrans ExactTransBox ExactTransRay ExactReflect.
Local Open Scope R_scope.
Lemma xseq_zero x : seq (Fin x) szero = true <-> x = 0.
Proof. cbn [seq szero xreal_ops]. unfold xeq. rewrite andb_true_iff, !xle_fin. split; [lra|]. intros ->. lra. Qed.
Lemma xlt_false x y : slt (Fin x) (Fin y) = false <-> y <= x.
Proof.
  cbn [slt xreal_ops]. destruct (xlt (Fin x) (Fin y)) eqn:E; [apply xlt_fin in E; split; [discriminate | lra]|]. split; [intros _|reflexivity].
  destruct (Rle_or_lt y x) as [H|H]; [exact H|]. apply xlt_fin in H. congruence.
Qed.
Definition tdet (r : Ray3 R) (a b c : Point3 R) : R := Rdot3 (Rpp3 b a) (Rcross (r3_direction r) (Rpp3 c a)).
Definition tu (r : Ray3 R) (a b c : Point3 R) : R := Rdot3 (Rpp3 (r3_origin r) a) (Rcross (r3_direction r) (Rpp3 c a)).
Definition tv (r : Ray3 R) (a b c : Point3 R) : R := Rdot3 (r3_direction r) (Rcross (Rpp3 (r3_origin r) a) (Rpp3 b a)).
Definition tt_ (r : Ray3 R) (a b c : Point3 R) : R := Rdot3 (Rpp3 c a) (Rcross (Rpp3 (r3_origin r) a) (Rpp3 b a)).
Ltac ut := unfold tdet, tu, tv, tt_, Rcross, tri_point in *; fv3.
(* Cramer's rule *)
Lemma cramer r a b c t u v : Rat3 r t = tri_point a b c u v -> u * tdet r a b c = tu r a b c /\ v * tdet r a b c = tv r a b c /\ t * tdet r a b c = tt_ r a b c.
Proof.
  intros H. destruct r as [[ox oy oz] [dx dy dz]], a as [ax ay az], b as [bx by_ bz], c as [cx cy cz]. unfold tdet, tu, tv, tt_, Rcross, tri_point, Rat3, Rpp3, Rdot3 in *. cbn in *. injection H as H1 H2 H3.
  assert (E1 : ox = ax + u * (bx - ax) + v * (cx - ax) - t * dx) by lra.
  assert (E2 : oy = ay + u * (by_ - ay) + v * (cy - ay) - t * dy) by lra.
  assert (E3 : oz = az + u * (bz - az) + v * (cz - az) - t * dz) by lra. clear H1 H2 H3. subst. repeat split; ring.
Qed.
Lemma cramer_ex r a b c : tdet r a b c <> 0 -> Rat3 r (tt_ r a b c * (1 / tdet r a b c)) = tri_point a b c (tu r a b c * (1 / tdet r a b c)) (tv r a b c * (1 / tdet r a b c)).
Proof.
  intros H. assert (K : forall p q s e f T E F d : R, d <> 0 -> p * d + T * s = q * d + E * e + F * f -> p + T * (1 / d) * s = q + E * (1 / d) * e + F * (1 / d) * f).
  { intros. apply (Rmult_eq_reg_r d); [|assumption]. replace ((p + T * (1 / d) * s) * d) with (p * d + T * s) by (field; assumption). rewrite H1. field; assumption. }
  unfold Rat3, tri_point. f_equal; apply K; try exact H; clear; destruct r as [[ox oy oz] [dx dy dz]], a as [ax ay az], b as [bx by_ bz], c as [cx cy cz]; unfold tdet, tu, tv, tt_, Rcross, Rpp3, Rdot3; cbn; ring.
Qed.
Lemma xtri r a b c : ray_triangle (XR3 r) (XP3 a) (XP3 b) (XP3 c) =
  let det := tdet r a b c in let i := 1 / det in let u := tu r a b c * i in let v := tv r a b c * i in let t := tt_ r a b c * i in
  if seq (Fin det) szero then None else if slt (Fin u) szero then None else if slt sone (Fin u) then None else
  if slt (Fin v) szero then None else if slt sone (Fin (u + v)) then None else if slt (Fin t) szero then None else Some (Fin t, Fin u, Fin v).
Proof.
  unfold ray_triangle. cbn [XR3 r3_origin r3_direction]. rewrite !xpp3, !xv3_cross, !xd3. cbv zeta. fold (tdet r a b c).
  destruct (seq (Fin (tdet r a b c)) szero) eqn:E; [reflexivity|].
  assert (D : tdet r a b c <> 0) by (intros K; apply xseq_zero in K; congruence).
  cbn [srecip xreal_ops]. rewrite xdiv_fin by exact D. cbn [smul sadd xreal_ops xmul xadd]. fold (tu r a b c) (tv r a b c) (tt_ r a b c). reflexivity.
Qed.
Lemma tdet_normal r a b c : v3_dot (v3_cross (p3_sub (XP3 b) (XP3 a)) (p3_sub (XP3 c) (XP3 a))) (XV3 (r3_direction r)) = Fin (- tdet r a b c).
Proof. rewrite !xpp3, xv3_cross, xd3. apply Fin_eq. destruct r as [[ox oy oz] [dx dy dz]], a, b, c. unfold tdet, Rcross, Rpp3, Rdot3. cbn. ring. Qed.
Lemma C122_sound_pf : forall (r : Ray3 R) (a b c : Point3 R) (x : xreal * xreal * xreal), ray_triangle (XR3 r) (XP3 a) (XP3 b) (XP3 c) = Some x ->
  exists t u v : R, x = (Fin t, Fin u, Fin v) /\ Hits r a b c t u v.
Proof.
  intros r a b c x. rewrite xtri. cbv zeta. destruct (seq (Fin (tdet r a b c)) szero) eqn:E; [discriminate|].
  assert (D : tdet r a b c <> 0) by (intros K; apply xseq_zero in K; congruence).
  repeat match goal with |- context [if ?k then None else _] => destruct k eqn:?; [discriminate|] end. intros H. injection H as <-.
  repeat match goal with H : slt _ _ = false |- _ => apply xlt_false in H end.
  eexists _, _, _. split; [reflexivity|]. unfold Hits. repeat split; try assumption. now apply cramer_ex.
Qed.
Lemma C122_complete_pf : forall (r : Ray3 R) (a b c : Point3 R),
  let normal := v3_cross (p3_sub (XP3 b) (XP3 a)) (p3_sub (XP3 c) (XP3 a)) in
  (v3_dot normal (XV3 (r3_direction r)) = Fin 0 -> ray_triangle (XR3 r) (XP3 a) (XP3 b) (XP3 c) = None) /\
  (v3_dot normal (XV3 (r3_direction r)) <> Fin 0 -> forall t u v : R, Hits r a b c t u v -> ray_triangle (XR3 r) (XP3 a) (XP3 b) (XP3 c) = Some (Fin t, Fin u, Fin v)).
Proof.
  intros r a b c. cbv zeta. rewrite tdet_normal, xtri. cbv zeta. split.
  - intros E. injection E as E. assert (Z : tdet r a b c = 0) by lra. apply xseq_zero in Z. now rewrite Z.
  - intros N t u v (T & U & V & S & H). assert (D : tdet r a b c <> 0) by (intros Z; apply N; rewrite Z; apply Fin_eq; ring).
    destruct (cramer r a b c t u v H) as (E1 & E2 & E3). rewrite <- E1, <- E2, <- E3.
    assert (K : forall y, y * tdet r a b c * (1 / tdet r a b c) = y) by (intros y; field; exact D). rewrite !K.
    destruct (seq (Fin (tdet r a b c)) szero) eqn:E; [apply xseq_zero in E; contradiction|].
    assert (F : forall y z, z <= y -> slt (Fin y) (Fin z) = false) by (intros; now apply xlt_false).
    cbn [szero sone xreal_ops] in *. rewrite !F by lra. reflexivity.
Qed.
Lemma C122_box_first_pf : forall (r : Ray3 R) (a b c : Point3 R), let box := bb3_union_point (bb3_new (XP3 a) (XP3 b)) (XP3 c) in
  (forall t u v : R, Hits r a b c t u v -> bb3_is_inside box (r3_at (XR3 r) (Fin t)) = true) /\
  (forall k : BoundingBox3 R, box = XB3 k -> r3_direction r <> Rzero3 -> off_faces3 k r -> bb3_intersect_ray box (XR3 r) = None -> ray_triangle (XR3 r) (XP3 a) (XP3 b) (XP3 c) = None).
Proof.
  intros r a b c. cbv zeta. assert (BX : exists k, bb3_union_point (bb3_new (XP3 a) (XP3 b)) (XP3 c) = XB3 k /\ Rordered3 k /\ Rin3 a k /\ Rin3 b k /\ Rin3 c k).
  { rewrite xbb3_new. unfold bb3_union_point. unfold Rnew3. cbn [XB3 bb3_min bb3_max]. rewrite xp3_min, xp3_max, xbb3_new. eexists. split; [reflexivity|]. split; [apply Rnew_is_ordered3|].
    unfold Rin3, Rnew3. cbn.
    assert (L1 : forall x y z, Rmin (Rmin (Rmin x y) z) (Rmax (Rmax x y) z) = Rmin (Rmin x y) z /\ Rmax (Rmin (Rmin x y) z) (Rmax (Rmax x y) z) = Rmax (Rmax x y) z).
    { intros x y z. assert (Q : Rmin (Rmin x y) z <= Rmax (Rmax x y) z) by (eapply Rle_trans; [apply Rmin_r | apply Rmax_r]). split; [now rewrite Rmin_left | now rewrite Rmax_right]. }
    rewrite !(fun x y z => proj1 (L1 x y z)), !(fun x y z => proj2 (L1 x y z)).
    assert (M : forall x y z, (Rmin (Rmin x y) z <= x <= Rmax (Rmax x y) z) /\ (Rmin (Rmin x y) z <= y <= Rmax (Rmax x y) z) /\ (Rmin (Rmin x y) z <= z <= Rmax (Rmax x y) z)).
    { intros x y z. pose proof (Rmin_l x y). pose proof (Rmin_r x y). pose proof (Rmin_l (Rmin x y) z). pose proof (Rmin_r (Rmin x y) z).
      pose proof (Rmax_l x y). pose proof (Rmax_r x y). pose proof (Rmax_l (Rmax x y) z). pose proof (Rmax_r (Rmax x y) z). repeat split; lra. }
    pose proof (M (p3x a) (p3x b) (p3x c)). pose proof (M (p3y a) (p3y b) (p3y c)). pose proof (M (p3z a) (p3z b) (p3z c)). tauto. }
  destruct BX as (k & E & O & IA & IB & IC). rewrite E.
  assert (IN : forall t u v, Hits r a b c t u v -> bb3_is_inside (XB3 k) (r3_at (XR3 r) (Fin t)) = true).
  { intros t u v (T & U & V & S & H). rewrite xr3_at. apply xle_iff3_inside. rewrite H. unfold Rin3, tri_point in *. cbn [p3x p3y p3z].
    assert (CV : forall lo hi x y z, lo <= x <= hi -> lo <= y <= hi -> lo <= z <= hi -> lo <= x + u * (y - x) + v * (z - x) <= hi).
    { intros lo hi x y z X Y Z. replace (x + u * (y - x) + v * (z - x)) with ((1 - u - v) * x + u * y + v * z) by ring.
      split; [replace lo with ((1 - u - v) * lo + u * lo + v * lo) by ring | replace hi with ((1 - u - v) * hi + u * hi + v * hi) by ring]; repeat apply Rplus_le_compat; apply Rmult_le_compat_l; lra. }
    destruct IA as (? & ? & ?), IB as (? & ? & ?), IC as (? & ? & ?). split; [|split]; apply CV; assumption. }
  split; [exact IN|]. intros k' EK D F N. assert (EK' : k = k').
  { destruct k as [[] []], k' as [[] []]. injection EK. intros. now subst. }
  subst k'. pose proof (C16_ray_intersection_3d_pf k r O D F) as G. rewrite N in G.
  destruct (ray_triangle (XR3 r) (XP3 a) (XP3 b) (XP3 c)) as [x|] eqn:X; [|reflexivity]. exfalso.
  destruct (C122_sound_pf _ _ _ _ _ X) as (t & u & v & _ & H). pose proof (IN t u v H) as I. rewrite G in I by apply H. discriminate.
Qed.
Definition trr : Ray3 R := mkRay3 (mkPoint3 1 1 5) (mkVector3 0 0 (-1)).
Definition tra : Point3 R := mkPoint3 0 0 0.
Definition trb : Point3 R := mkPoint3 4 0 0.
Definition trc : Point3 R := mkPoint3 0 4 0.
Lemma tr_facts : Hits trr tra trb trc 5 (1 / 4) (1 / 4) /\ v3_dot (v3_cross (p3_sub (XP3 trb) (XP3 tra)) (p3_sub (XP3 trc) (XP3 tra))) (XV3 (r3_direction trr)) <> Fin 0.
Proof.
  split.
  - unfold Hits. repeat split; try lra. unfold Rat3, tri_point, trr, tra, trb, trc. cbn. f_equal; field.
  - rewrite tdet_normal. intros E. injection E as E. revert E. unfold tdet, Rcross, Rpp3, Rdot3, trr, tra, trb, trc. cbn. lra.
Qed.
