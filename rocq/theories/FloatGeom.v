(** Proofs of floating-point properties that need rounding facts, for f32/f64 on every platform and exact reals alike. *)
From Coq Require Import Bool NArith ZArith Reals List Lra Lia.
From Verif Require Import Scalar Types Vector2 Vector3 Point2 Point3 Ray BoundingBox2 BoundingBox3 Float
  XReal OrdLaws Arith SpecOrder SpecFloat OrderProofs OrderBox Comm XArith FloatLaws.
Local Open Scope R_scope.
Lemma all_d2 (Q : Dimension2 -> Prop) : Q D2X -> Q D2Y -> forall d, Q d.
Proof. intros ? ? []; assumption. Qed.
Lemma all_d3 (Q : Dimension3 -> Prop) : Q D3X -> Q D3Y -> Q D3Z -> forall d, Q d.
Proof. intros ? ? ? []; assumption. Qed.
Lemma dot2_self_NotNeg {A : arith} (v : Vector2 (num A)) : NotNeg (v2_dot v v).
Proof. unfold v2_dot. repeat apply add_NotNeg; apply sqr_NotNeg. Qed.
Lemma dot2_self_Le {A : arith} (v : Vector2 (num A)) : NoNaN (v2_dot v v) -> Le szero (v2_dot v v).
Proof. intros H. apply NotNeg_Le; [apply dot2_self_NotNeg | assumption]. Qed.
Lemma incl2_corners {A : arith} (a b : BoundingBox2 (num A)) : Ordered2 a -> Incl2 a b ->
  PLe2 (bb2_min b) (bb2_min a) /\ PLe2 (bb2_max a) (bb2_max b).
Proof.
  pose proof (num_OrdLaws A) as L.
  intros Ho I. assert (I1 : In2 (bb2_min a) a). { split; [|exact Ho]. intros d. apply (Le_refl L). apply (Le_nan1 L) with (1 := Ho d). }
  assert (I2 : In2 (bb2_max a) a). { split; [exact Ho|]. intros d. apply (Le_refl L). apply (Le_nan2 L) with (1 := Ho d). }
  split; [apply (I _ I1) | apply (I _ I2)].
Qed.
Lemma dot3_self_NotNeg {A : arith} (v : Vector3 (num A)) : NotNeg (v3_dot v v).
Proof. unfold v3_dot. repeat apply add_NotNeg; apply sqr_NotNeg. Qed.
Lemma dot3_self_Le {A : arith} (v : Vector3 (num A)) : NoNaN (v3_dot v v) -> Le szero (v3_dot v v).
Proof. intros H. apply NotNeg_Le; [apply dot3_self_NotNeg | assumption]. Qed.
Lemma incl3_corners {A : arith} (a b : BoundingBox3 (num A)) : Ordered3 a -> Incl3 a b ->
  PLe3 (bb3_min b) (bb3_min a) /\ PLe3 (bb3_max a) (bb3_max b).
Proof.
  pose proof (num_OrdLaws A) as L.
  intros Ho I. assert (I1 : In3 (bb3_min a) a). { split; [|exact Ho]. intros d. apply (Le_refl L). apply (Le_nan1 L) with (1 := Ho d). }
  assert (I2 : In3 (bb3_max a) a). { split; [exact Ho|]. intros d. apply (Le_refl L). apply (Le_nan2 L) with (1 := Ho d). }
  split; [apply (I _ I1) | apply (I _ I2)].
Qed.
(* a comparison of square roots and of the squares agree as far as rounding allows *)
Lemma sqrt_lt {A : arith} (x y : num A) : NotNeg x -> NotNeg y -> Lt (ssqrt x) (ssqrt y) -> Lt x y.
Proof.
  pose proof (num_OrdLaws A) as L. intros Nx Ny H. apply (Lt_iff L) in H. destruct H as (A1 & A2 & A3).
  apply (Lt_iff L). assert (X : NoNaN x) by now apply sqrt_NoNaN_inv. assert (Y : NoNaN y) by now apply sqrt_NoNaN_inv.
  repeat split; try assumption. intros K. apply A3. apply sqrt_mono; [|assumption]. now apply NotNeg_Le.
Qed.
Lemma pick_small {A : arith} (x y : num A) : NotNeg x -> NotNeg y -> NoNaN x -> NoNaN y ->
  if slt x y then Le (ssqrt x) (ssqrt y) else Le (ssqrt y) (ssqrt x).
Proof.
  pose proof (num_OrdLaws A) as L. intros Nx Ny X Y. destruct (slt x y) eqn:E.
  - apply sqrt_mono; [now apply NotNeg_Le | now apply (Lt_Le L)].
  - apply sqrt_mono; [now apply NotNeg_Le | now apply (not_Lt_Le L)].
Qed.
Lemma sqrt_self {A : arith} (x : num A) : NotNeg x -> NoNaN x -> Le (ssqrt x) (ssqrt x).
Proof. pose proof (num_OrdLaws A) as L. intros. apply (Le_refl L). apply sqrt_NoNaN. now apply NotNeg_Le. Qed.
Lemma C13_center_inside_2d_pf : forall (A : arith) (b : BoundingBox2 (num A)),
  Ordered2 b -> BFinite2 b -> (forall d, Finite (bb2_extent b d)) -> bb2_is_inside b (bb2_center b) = true.
Proof.
  intros A b Ho (F1 & F2) Fe. pose proof (fun d => center_between (coord2 (bb2_min b) d) (coord2 (bb2_max b) d) (F1 d) (F2 d) (Ho d)) as C.
  unfold bb2_is_inside. rewrite !andb_true_iff. repeat split.
  all: first [apply (C D2X (Fe D2X)) | apply (C D2Y (Fe D2Y)) | idtac].
  all: try apply (C D3Z (Fe D3Z)).
Qed.
Lemma C13_center_inside_3d_pf : forall (A : arith) (b : BoundingBox3 (num A)),
  Ordered3 b -> BFinite3 b -> (forall d, Finite (bb3_extent b d)) -> bb3_is_inside b (bb3_center b) = true.
Proof.
  intros A b Ho (F1 & F2) Fe. pose proof (fun d => center_between (coord3 (bb3_min b) d) (coord3 (bb3_max b) d) (F1 d) (F2 d) (Ho d)) as C.
  unfold bb3_is_inside. rewrite !andb_true_iff. repeat split.
  all: first [apply (C D3X (Fe D3X)) | apply (C D3Y (Fe D3Y)) | idtac].
  all: try apply (C D3Z (Fe D3Z)).
Qed.
Lemma C14_extents_agree_2d_pf : forall (A : arith) (b : BoundingBox2 (num A)),
  bb2_extent b D2X = bb2_width b /\ bb2_extent b D2Y = bb2_height b /\
  bb2_size b = (bb2_extent b D2X, bb2_extent b D2Y) /\
  (forall d, vcoord2 (bb2_diagonal b) d = bb2_extent b d) /\
  (forall d, bb2_extent b d = ssub (coord2 (bb2_max b) d) (coord2 (bb2_min b) d)).
Proof.
  intros A b. repeat split; intros []; reflexivity.
Qed.
Lemma C14_extents_agree_3d_pf : forall (A : arith) (b : BoundingBox3 (num A)),
  bb3_extent b D3X = bb3_width b /\ bb3_extent b D3Y = bb3_height b /\ bb3_extent b D3Z = bb3_depth b /\
  bb3_size b = (bb3_extent b D3X, bb3_extent b D3Y, bb3_extent b D3Z) /\
  (forall d, vcoord3 (bb3_diagonal b) d = bb3_extent b d) /\
  (forall d, bb3_extent b d = ssub (coord3 (bb3_max b) d) (coord3 (bb3_min b) d)).
Proof.
  intros A b. repeat split; intros []; reflexivity.
Qed.
Lemma C14_extent_nonnegative_2d_pf : forall (A : arith) (b : BoundingBox2 (num A)),
  Ordered2 b -> (forall d, NotNeg (bb2_extent b d)) /\ (BFinite2 b -> forall d, Le szero (bb2_extent b d)).
Proof.
  intros A b Ho. assert (N : forall d, NotNeg (bb2_extent b d)).
  { intros d. assert (E : bb2_extent b d = ssub (coord2 (bb2_max b) d) (coord2 (bb2_min b) d)) by (destruct d; reflexivity).
    rewrite E. apply sub_NotNeg. apply Ho. }
  split; [exact N|]. intros [F1 F2] d. apply NotNeg_Le; [apply N|].
  assert (E : bb2_extent b d = ssub (coord2 (bb2_max b) d) (coord2 (bb2_min b) d)) by (destruct d; reflexivity).
  rewrite E. apply sub_finite_NoNaN; auto.
Qed.
Lemma C14_extent_nonnegative_3d_pf : forall (A : arith) (b : BoundingBox3 (num A)),
  Ordered3 b -> (forall d, NotNeg (bb3_extent b d)) /\ (BFinite3 b -> forall d, Le szero (bb3_extent b d)).
Proof.
  intros A b Ho. assert (N : forall d, NotNeg (bb3_extent b d)).
  { intros d. assert (E : bb3_extent b d = ssub (coord3 (bb3_max b) d) (coord3 (bb3_min b) d)) by (destruct d; reflexivity).
    rewrite E. apply sub_NotNeg. apply Ho. }
  split; [exact N|]. intros [F1 F2] d. apply NotNeg_Le; [apply N|].
  assert (E : bb3_extent b d = ssub (coord3 (bb3_max b) d) (coord3 (bb3_min b) d)) by (destruct d; reflexivity).
  rewrite E. apply sub_finite_NoNaN; auto.
Qed.
Lemma C14_extent_monotone_2d_pf : forall (A : arith) (a b : BoundingBox2 (num A)) d,
  Ordered2 a -> Incl2 a b -> NoNaN (bb2_extent a d) -> NoNaN (bb2_extent b d) -> Le (bb2_extent a d) (bb2_extent b d).
Proof.
  intros A a b d Ho I. destruct (incl2_corners a b Ho I) as [I1 I2]. specialize (I1 d). specialize (I2 d).
  destruct d; intros; apply sub_mono; assumption.
Qed.
Lemma C14_extent_monotone_3d_pf : forall (A : arith) (a b : BoundingBox3 (num A)) d,
  Ordered3 a -> Incl3 a b -> NoNaN (bb3_extent a d) -> NoNaN (bb3_extent b d) -> Le (bb3_extent a d) (bb3_extent b d).
Proof.
  intros A a b d Ho I. destruct (incl3_corners a b Ho I) as [I1 I2]. specialize (I1 d). specialize (I2 d).
  destruct d; intros; apply sub_mono; assumption.
Qed.
Lemma C15_area_float_pf : forall (A : arith) (b : BoundingBox2 (num A)),
  bb2_area b = smul (bb2_extent b D2X) (bb2_extent b D2Y) /\ (Ordered2 b -> NotNeg (bb2_area b)).
Proof.
  intros A b. split; [reflexivity|]. intros Ho. apply mul_NotNeg; apply sub_NotNeg; [apply (Ho D2X) | apply (Ho D2Y)].
Qed.
Lemma C15_volume_surface_float_pf : forall (A : arith) (b : BoundingBox3 (num A)),
  let w := bb3_extent b D3X in let h := bb3_extent b D3Y in let d := bb3_extent b D3Z in
  bb3_volume b = smul (smul w h) d /\
  bb3_surface_area b = smul stwo (sadd (sadd (smul w h) (smul w d)) (smul h d)) /\
  (Ordered3 b -> NotNeg (bb3_volume b) /\ NotNeg (bb3_surface_area b)).
Proof.
  intros A b. cbv zeta. split; [reflexivity|]. split; [reflexivity|]. intros Ho.
  assert (X : NotNeg (bb3_width b)) by (apply sub_NotNeg; apply (Ho D3X)).
  assert (Y : NotNeg (bb3_height b)) by (apply sub_NotNeg; apply (Ho D3Y)).
  assert (Z : NotNeg (bb3_depth b)) by (apply sub_NotNeg; apply (Ho D3Z)).
  split.
  - change (NotNeg (smul (smul (bb3_width b) (bb3_height b)) (bb3_depth b))). repeat apply mul_NotNeg; assumption.
  - change (NotNeg (smul stwo (sadd (sadd (smul (bb3_width b) (bb3_height b)) (smul (bb3_width b) (bb3_depth b))) (smul (bb3_height b) (bb3_depth b))))).
    apply mul_NotNeg; [apply two_NotNeg|]. repeat apply add_NotNeg; apply mul_NotNeg; assumption.
Qed.
Lemma mul_mono' {A : arith} (x x' y y' : num A) : NotNeg x -> NotNeg y -> (NoNaN x -> NoNaN x' -> Le x x') -> (NoNaN y -> NoNaN y' -> Le y y') ->
  NoNaN (smul x y) -> NoNaN (smul x' y') -> Le (smul x y) (smul x' y').
Proof.
  intros Nx Ny X Y N N'. destruct (mul_NoNaN_inv _ _ N), (mul_NoNaN_inv _ _ N').
  apply mul_mono; try assumption; try (now apply NotNeg_Le); auto.
Qed.
Lemma add_mono' {A : arith} (x x' y y' : num A) : (NoNaN x -> NoNaN x' -> Le x x') -> (NoNaN y -> NoNaN y' -> Le y y') ->
  NoNaN (sadd x y) -> NoNaN (sadd x' y') -> Le (sadd x y) (sadd x' y').
Proof. intros X Y N N'. destruct (add_NoNaN_inv _ _ N), (add_NoNaN_inv _ _ N'). apply add_mono; auto. Qed.
Lemma C15_area_monotone_float_pf : forall (A : arith) (a b : BoundingBox2 (num A)),
  Ordered2 a -> Incl2 a b -> NoNaN (bb2_area a) -> NoNaN (bb2_area b) -> Le (bb2_area a) (bb2_area b).
Proof.
  intros A a b Ho I.
  assert (X : NotNeg (bb2_width a)) by (apply sub_NotNeg; apply (Ho D2X)).
  assert (Y : NotNeg (bb2_height a)) by (apply sub_NotNeg; apply (Ho D2Y)).
  pose proof (C14_extent_monotone_2d_pf A a b D2X Ho I) as MX. cbn [bb2_extent] in MX.
  pose proof (C14_extent_monotone_2d_pf A a b D2Y Ho I) as MY. cbn [bb2_extent] in MY.
  now apply (mul_mono' (bb2_width a) (bb2_width b) (bb2_height a) (bb2_height b)).
Qed.
Lemma C15_volume_surface_monotone_float_pf : forall (A : arith) (a b : BoundingBox3 (num A)), Ordered3 a -> Incl3 a b ->
  (NoNaN (bb3_volume a) -> NoNaN (bb3_volume b) -> Le (bb3_volume a) (bb3_volume b)) /\
  (NoNaN (bb3_surface_area a) -> NoNaN (bb3_surface_area b) -> Le (bb3_surface_area a) (bb3_surface_area b)).
Proof.
  intros A a b Ho I.
  assert (X : NotNeg (bb3_width a)) by (apply sub_NotNeg; apply (Ho D3X)).
  assert (Y : NotNeg (bb3_height a)) by (apply sub_NotNeg; apply (Ho D3Y)).
  assert (Z : NotNeg (bb3_depth a)) by (apply sub_NotNeg; apply (Ho D3Z)).
  pose proof (C14_extent_monotone_3d_pf A a b D3X Ho I) as MX. cbn [bb3_extent] in MX.
  pose proof (C14_extent_monotone_3d_pf A a b D3Y Ho I) as MY. cbn [bb3_extent] in MY.
  pose proof (C14_extent_monotone_3d_pf A a b D3Z Ho I) as MZ. cbn [bb3_extent] in MZ.
  split.
  - apply (mul_mono' (smul (bb3_width a) (bb3_height a)) (smul (bb3_width b) (bb3_height b)) (bb3_depth a) (bb3_depth b)); auto; [now apply mul_NotNeg|].
    now apply mul_mono'.
  - apply (mul_mono' stwo stwo (sadd (sadd (smul (bb3_width a) (bb3_height a)) (smul (bb3_width a) (bb3_depth a))) (smul (bb3_height a) (bb3_depth a)))
             (sadd (sadd (smul (bb3_width b) (bb3_height b)) (smul (bb3_width b) (bb3_depth b))) (smul (bb3_height b) (bb3_depth b)))).
    + apply two_NotNeg.
    + repeat apply add_NotNeg; now apply mul_NotNeg.
    + intros N _. apply (Le_refl (num_OrdLaws A)). exact N.
    + repeat apply add_mono'; now apply mul_mono'.
Qed.
Lemma C21_cross_anticommutative_float_pf : forall (A : arith) (a b : Vector3 (num A)) (d : Dimension3),
  NoNaN (vcoord3 (v3_cross a b) d) -> Eqs (vcoord3 (v3_cross a b) d) (vcoord3 (v3_neg (v3_cross b a)) d).
Proof.
  intros A a b d. destruct d; cbn -[num num_ops]; intros H;
    rewrite ?(smul_comm (v3x b)), ?(smul_comm (v3y b)), ?(smul_comm (v3z b)); apply (sub_anti _ _ H).
Qed.
Lemma C22_length_float_2d_pf : forall (A : arith) (v : Vector2 (num A)), NotNeg (v2_length v) /\ v2_length (v2_neg v) = v2_length v.
Proof.
  intros A v. split; [apply sqrt_NotNeg|].
  unfold v2_length, v2_dot, v2_neg, v2_new. cbn [v2x v2y v3x v3y v3z]. now rewrite !mul_neg_neg.
Qed.
Lemma C22_length_float_3d_pf : forall (A : arith) (v : Vector3 (num A)), NotNeg (v3_length v) /\ v3_length (v3_neg v) = v3_length v.
Proof.
  intros A v. split; [apply sqrt_NotNeg|].
  unfold v3_length, v3_dot, v3_neg, v3_new. cbn [v2x v2y v3x v3y v3z]. now rewrite !mul_neg_neg.
Qed.
Lemma C25_relative_length_float_2d_pf : forall (A : arith) (a b : Vector2 (num A)),
  (Lt (v2_length a) (v2_length b) -> v2_is_shorter_than a b = true /\ v2_is_longer_than b a = true) /\
  v2_is_longer_than a b = v2_is_shorter_than b a /\
  (v2_shortest a b = a \/ v2_shortest a b = b) /\ (v2_longest a b = a \/ v2_longest a b = b) /\
  (NoNaN (v2_dot a a) -> NoNaN (v2_dot b b) ->
   Le (v2_length (v2_shortest a b)) (v2_length a) /\ Le (v2_length (v2_shortest a b)) (v2_length b) /\
   Le (v2_length a) (v2_length (v2_longest a b)) /\ Le (v2_length b) (v2_length (v2_longest a b))).
Proof.
  intros A a b. split; [|split; [|split; [|split]]].
  - intros H. assert (K : Lt (v2_dot a a) (v2_dot b b)) by (apply sqrt_lt; auto using dot2_self_NotNeg). split; exact K.
  - reflexivity.
  - unfold v2_shortest. destruct v2_is_shorter_than; auto.
  - unfold v2_longest. destruct v2_is_longer_than; auto.
  - intros Na Nb. pose proof (dot2_self_NotNeg a) as Pa. pose proof (dot2_self_NotNeg b) as Pb.
    pose proof (pick_small _ _ Pa Pb Na Nb) as H1. pose proof (pick_small _ _ Pb Pa Nb Na) as H2.
    pose proof (sqrt_self _ Pa Na) as R1. pose proof (sqrt_self _ Pb Nb) as R2.
    unfold v2_shortest, v2_longest, v2_is_shorter_than, v2_is_longer_than.
    destruct (slt (v2_dot a a) (v2_dot b b)); destruct (slt (v2_dot b b) (v2_dot a a)); repeat split; assumption.
Qed.
Lemma C25_relative_length_float_3d_pf : forall (A : arith) (a b : Vector3 (num A)),
  (Lt (v3_length a) (v3_length b) -> v3_is_shorter_than a b = true /\ v3_is_longer_than b a = true) /\
  v3_is_longer_than a b = v3_is_shorter_than b a /\
  (v3_shortest a b = a \/ v3_shortest a b = b) /\ (v3_longest a b = a \/ v3_longest a b = b) /\
  (NoNaN (v3_dot a a) -> NoNaN (v3_dot b b) ->
   Le (v3_length (v3_shortest a b)) (v3_length a) /\ Le (v3_length (v3_shortest a b)) (v3_length b) /\
   Le (v3_length a) (v3_length (v3_longest a b)) /\ Le (v3_length b) (v3_length (v3_longest a b))).
Proof.
  intros A a b. split; [|split; [|split; [|split]]].
  - intros H. assert (K : Lt (v3_dot a a) (v3_dot b b)) by (apply sqrt_lt; auto using dot3_self_NotNeg). split; exact K.
  - reflexivity.
  - unfold v3_shortest. destruct v3_is_shorter_than; auto.
  - unfold v3_longest. destruct v3_is_longer_than; auto.
  - intros Na Nb. pose proof (dot3_self_NotNeg a) as Pa. pose proof (dot3_self_NotNeg b) as Pb.
    pose proof (pick_small _ _ Pa Pb Na Nb) as H1. pose proof (pick_small _ _ Pb Pa Nb Na) as H2.
    pose proof (sqrt_self _ Pa Na) as R1. pose proof (sqrt_self _ Pb Nb) as R2.
    unfold v3_shortest, v3_longest, v3_is_shorter_than, v3_is_longer_than.
    destruct (slt (v3_dot a a) (v3_dot b b)); destruct (slt (v3_dot b b) (v3_dot a a)); repeat split; assumption.
Qed.
Lemma C26_scalar_length_pf : forall (A : arith) (s t : num A),
  s_length s = sabs s /\ NotNeg (s_length s) /\ s_length (sneg s) = s_length s /\
  (s_shortest s t = s \/ s_shortest s t = t) /\ (s_longest s t = s \/ s_longest s t = t) /\
  (NoNaN s -> NoNaN t ->
   Le (s_length (s_shortest s t)) (s_length s) /\ Le (s_length (s_shortest s t)) (s_length t) /\
   Le (s_length s) (s_length (s_longest s t)) /\ Le (s_length t) (s_length (s_longest s t)) /\
   (s_is_shorter_than s t = true <-> Lt (s_length s) (s_length t)) /\ s_is_longer_than s t = s_is_shorter_than t s).
Proof.
  intros A s t. pose proof (num_OrdLaws A) as L. split; [reflexivity|]. split; [apply abs_NotNeg|]. split.
  { unfold s_length. destruct A as [f P|]; [destruct s; reflexivity|]. destruct s as [r| | |]; cbn; try reflexivity. now rewrite Rabs_Ropp. }
  split; [unfold s_shortest; destruct s_is_shorter_than; auto|]. split; [unfold s_longest; destruct s_is_longer_than; auto|].
  intros Ns Nt. assert (X : NoNaN (sabs s)) by now apply (ol_abs_nan _ L). assert (Y : NoNaN (sabs t)) by now apply (ol_abs_nan _ L).
  pose proof (Le_refl L _ X) as R1. pose proof (Le_refl L _ Y) as R2.
  unfold s_shortest, s_longest, s_is_shorter_than, s_is_longer_than, s_length.
  destruct (slt (sabs s) (sabs t)) eqn:E1; destruct (slt (sabs t) (sabs s)) eqn:E2;
    repeat match goal with
    | H : slt ?a ?b = true |- _ => pose proof (Lt_Le L a b H); revert H
    | H : slt ?a ?b = false |- _ => pose proof (not_Lt_Le L a b ltac:(assumption) ltac:(assumption) H); revert H
    end; intros; repeat split; try assumption; intros; unfold Lt in *; congruence.
Qed.
Lemma C26_scalar_distance_pf : forall (A : arith) (p s t : num A),
  s_distance p s = sabs (ssub s p) /\ NotNeg (s_distance p s) /\ s_distance p s = s_distance s p /\
  (s_closest p s t = s \/ s_closest p s t = t) /\ (s_farthest p s t = s \/ s_farthest p s t = t) /\
  (NoNaN (s_distance p s) -> NoNaN (s_distance p t) ->
   Le (s_distance p (s_closest p s t)) (s_distance p s) /\ Le (s_distance p (s_closest p s t)) (s_distance p t) /\
   Le (s_distance p s) (s_distance p (s_farthest p s t)) /\ Le (s_distance p t) (s_distance p (s_farthest p s t)) /\
   (s_is_closer_to p s t = true <-> Lt (s_distance p s) (s_distance p t)) /\ s_is_farther_from p s t = s_is_closer_to p t s).
Proof.
  intros A p s t. pose proof (num_OrdLaws A) as L. split; [reflexivity|]. split; [apply abs_NotNeg|].
  split; [apply abs_sub_swap|].
  split; [unfold s_closest; destruct s_is_closer_to; auto|]. split; [unfold s_farthest; destruct s_is_farther_from; auto|].
  intros X Y. pose proof (Le_refl L _ X) as R1. pose proof (Le_refl L _ Y) as R2.
  unfold s_closest, s_farthest, s_is_closer_to, s_is_farther_from.
  destruct (slt (s_distance p s) (s_distance p t)) eqn:E1; destruct (slt (s_distance p t) (s_distance p s)) eqn:E2;
    repeat match goal with
    | H : slt ?a ?b = true |- _ => pose proof (Lt_Le L a b H); revert H
    | H : slt ?a ?b = false |- _ => pose proof (not_Lt_Le L a b ltac:(assumption) ltac:(assumption) H); revert H
    end; intros; repeat split; try assumption; intros; unfold Lt in *; congruence.
Qed.
Lemma C27_distance_float_2d_pf : forall (A : arith) (p q : Point2 (num A)), p2_distance p q = p2_distance q p /\ NotNeg (p2_distance p q).
Proof.
  intros A p q. split; [|apply sqrt_NotNeg].
  unfold p2_distance, v2_length, v2_dot, p2_sub, v2_new. cbn [v2x v2y v3x v3y v3z].
  now rewrite (sqr_sub_swap (p2x p) (p2x q)), (sqr_sub_swap (p2y p) (p2y q)).
Qed.
Lemma C27_distance_float_3d_pf : forall (A : arith) (p q : Point3 (num A)), p3_distance p q = p3_distance q p /\ NotNeg (p3_distance p q).
Proof.
  intros A p q. split; [|apply sqrt_NotNeg].
  unfold p3_distance, v3_length, v3_dot, p3_sub, v3_new. cbn [v2x v2y v3x v3y v3z].
  now rewrite (sqr_sub_swap (p3x p) (p3x q)), (sqr_sub_swap (p3y p) (p3y q)), (sqr_sub_swap (p3z p) (p3z q)).
Qed.
Lemma C28_relative_distance_float_2d_pf : forall (A : arith) (p a b : Point2 (num A)),
  (Lt (p2_distance p a) (p2_distance p b) -> p2_is_closer_to p a b = true /\ p2_is_farther_from p b a = true) /\
  p2_is_farther_from p a b = p2_is_closer_to p b a /\
  (p2_closest p a b = a \/ p2_closest p a b = b) /\ (p2_farthest p a b = a \/ p2_farthest p a b = b) /\
  (NoNaN (p2_distance p a) -> NoNaN (p2_distance p b) ->
   Le (p2_distance p (p2_closest p a b)) (p2_distance p a) /\ Le (p2_distance p (p2_closest p a b)) (p2_distance p b) /\
   Le (p2_distance p a) (p2_distance p (p2_farthest p a b)) /\ Le (p2_distance p b) (p2_distance p (p2_farthest p a b))).
Proof.
  intros A p a b. unfold p2_distance, p2_is_closer_to, p2_is_farther_from, p2_closest, p2_farthest, v2_length. cbv zeta.
  set (x := p2_sub a p). set (y := p2_sub b p).
  pose proof (dot2_self_NotNeg x) as Pa. pose proof (dot2_self_NotNeg y) as Pb.
  unfold p2_is_closer_to, p2_is_farther_from. cbv zeta. fold x y.
  split; [|split; [|split; [|split]]].
  - intros H. assert (K : Lt (v2_dot x x) (v2_dot y y)) by (now apply sqrt_lt). split; exact K.
  - reflexivity.
  - destruct slt; auto.
  - destruct slt; auto.
  - intros Na Nb. apply sqrt_NoNaN_inv in Na; [|assumption]. apply sqrt_NoNaN_inv in Nb; [|assumption].
    pose proof (pick_small _ _ Pa Pb Na Nb) as H1. pose proof (pick_small _ _ Pb Pa Nb Na) as H2.
    pose proof (sqrt_self _ Pa Na) as R1. pose proof (sqrt_self _ Pb Nb) as R2.
    destruct (slt (v2_dot x x) (v2_dot y y)); destruct (slt (v2_dot y y) (v2_dot x x)); fold x y; repeat split; assumption.
Qed.
Lemma C28_relative_distance_float_3d_pf : forall (A : arith) (p a b : Point3 (num A)),
  (Lt (p3_distance p a) (p3_distance p b) -> p3_is_closer_to p a b = true /\ p3_is_farther_from p b a = true) /\
  p3_is_farther_from p a b = p3_is_closer_to p b a /\
  (p3_closest p a b = a \/ p3_closest p a b = b) /\ (p3_farthest p a b = a \/ p3_farthest p a b = b) /\
  (NoNaN (p3_distance p a) -> NoNaN (p3_distance p b) ->
   Le (p3_distance p (p3_closest p a b)) (p3_distance p a) /\ Le (p3_distance p (p3_closest p a b)) (p3_distance p b) /\
   Le (p3_distance p a) (p3_distance p (p3_farthest p a b)) /\ Le (p3_distance p b) (p3_distance p (p3_farthest p a b))).
Proof.
  intros A p a b. unfold p3_distance, p3_is_closer_to, p3_is_farther_from, p3_closest, p3_farthest, v3_length. cbv zeta.
  set (x := p3_sub a p). set (y := p3_sub b p).
  pose proof (dot3_self_NotNeg x) as Pa. pose proof (dot3_self_NotNeg y) as Pb.
  unfold p3_is_closer_to, p3_is_farther_from. cbv zeta. fold x y.
  split; [|split; [|split; [|split]]].
  - intros H. assert (K : Lt (v3_dot x x) (v3_dot y y)) by (now apply sqrt_lt). split; exact K.
  - reflexivity.
  - destruct slt; auto.
  - destruct slt; auto.
  - intros Na Nb. apply sqrt_NoNaN_inv in Na; [|assumption]. apply sqrt_NoNaN_inv in Nb; [|assumption].
    pose proof (pick_small _ _ Pa Pb Na Nb) as H1. pose proof (pick_small _ _ Pb Pa Nb Na) as H2.
    pose proof (sqrt_self _ Pa Na) as R1. pose proof (sqrt_self _ Pb Nb) as R2.
    destruct (slt (v3_dot x x) (v3_dot y y)); destruct (slt (v3_dot y y) (v3_dot x x)); fold x y; repeat split; assumption.
Qed.
Lemma add_mul_0 {A : arith} (o d : num A) : NoNaN o -> Finite d -> Eqs (sadd o (smul d szero)) o.
Proof.
  rewrite Finite_tx, NoNaN_tx, Eqs_tx. intros N [r E]. rewrite tx_add, tx_mul, tx_0, E. cbn [xmul]. rewrite Rmult_0_r, xr_0.
  assert (X : xadd (tx o) (Fin 0) = tx o). { destruct (tx o); cbn; try reflexivity. f_equal. ring. }
  rewrite X, xr_tx. auto.
Qed.
Lemma C52_at_zero_is_origin_2d_pf : forall (A : arith) (r : Ray2 (num A)),
  NoNaN2 (r2_origin r) -> VFinite2 (r2_direction r) -> PEq2 (r2_at r szero) (r2_origin r).
Proof.
  intros A r No Fd d. specialize (No d). specialize (Fd d). destruct r as [o v]. destruct o, v, d; apply add_mul_0; assumption.
Qed.
Lemma C52_at_zero_is_origin_3d_pf : forall (A : arith) (r : Ray3 (num A)),
  NoNaN3 (r3_origin r) -> VFinite3 (r3_direction r) -> PEq3 (r3_at r szero) (r3_origin r).
Proof.
  intros A r No Fd d. specialize (No d). specialize (Fd d). destruct r as [o v]. destruct o, v, d; apply add_mul_0; assumption.
Qed.
