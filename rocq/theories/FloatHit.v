(** Proofs: the points computed from a ray-box hit (C86). *)
From Coq Require Import Bool NArith ZArith Reals List Lra Lia.
From Flocq Require Import Core.Zaux Core.Raux Core.Defs.
From Verif Require Import Scalar Types Vector2 Vector3 Point2 Point3 Ray BoundingBox2 BoundingBox3 Float
  XReal OrdLaws Arith SpecOrder SpecFloat SpecReal SpecErr SpecRay OrderProofs FloatX XArith FloatLaws ErrBase FloatErr SlabBase FloatRay FloatRayErr ExVals.
Import ListNotations.
Local Open Scope R_scope.
Section H.
Context {A : arith}.
Implicit Types c lo hi o d s e : num A.
Lemma near_self c q : nearp c q -> Finite c -> Rabs (real_of c - q) <= slack A q.
Proof.
  intros [N H] F. destruct (H c F) as (H1 & _ & H2 & _). assert (L : Le c c) by (apply (Le_refl (num_OrdLaws A)); exact N). specialize (H1 L). specialize (H2 L). unfold dn, up in *. apply Rabs_le. lra.
Qed.
Lemma near_face (s f o d : R) : d <> 0 -> Rabs (s - (f - o) / d) <= slack A ((f - o) / d) ->
  Rabs (o + s * d - f) <= 3 * unit_roundoff A * Rabs (f - o) + min_subnormal A * Rabs d.
Proof.
  intros D H. replace (o + s * d - f) with ((s - (f - o) / d) * d) by (field; assumption). rewrite Rabs_mult.
  assert (E : Rabs ((f - o) / d) * Rabs d = Rabs (f - o)) by (rewrite <- Rabs_mult; f_equal; field; assumption).
  apply Rle_trans with (slack A ((f - o) / d) * Rabs d); [apply Rmult_le_compat_r; [apply Rabs_pos | exact H]|]. unfold slack. rewrite Rmult_plus_distr_r, Rmult_assoc, E. lra.
Qed.
Definition onface (lo hi o d : num A) (s : R) (up_ : bool) : Prop :=
  real_of d <> 0 /\ exists face, (face = if up_ then if Rlt_bool 0 (real_of d) then hi else lo else if Rlt_bool 0 (real_of d) then lo else hi) /\
  Rabs (real_of o + s * real_of d - real_of face) <= 3 * unit_roundoff A * Rabs (real_of face - real_of o) + min_subnormal A * Rabs (real_of d).
Lemma axis_near lo hi o d s e : axis lo hi o d -> Le szero s -> Le s e -> Finite s -> cov (far lo hi o d) (Le e (far lo hi o d)) -> tx s = tx (near lo hi o d) -> onface lo hi o d (real_of s) false.
Proof.
  intros X L0 L F C E. pose proof (proj1 (proj1 (real_of_eq _ _ E)) F) as Fn. pose proof (proj2 (real_of_eq _ _ E) F) as V.
  destruct X as [a b D P N _ | D _ [M|M] _ | D _ _ [M|M]]; try (rewrite (Finite_real _ Fn) in M; discriminate).
  - apply near_self in N; [|exact Fn]. split; [exact D|]. destruct P as [(P & -> & _)|(P & -> & _)]; [exists lo | exists hi]; rewrite ?Rlt_bool_true, ?Rlt_bool_false by lra; (split; [reflexivity|]); rewrite V; apply near_face; assumption.
  - exfalso. destruct C as [C|C]; [apply NaN_no in C; congruence|]. assert (L' : Le szero (far lo hi o d)) by (eapply (Le_trans (num_OrdLaws A)); [eapply (Le_trans (num_OrdLaws A)); eassumption | exact C]). apply Le_tx in L'. rewrite M, tx_0 in L'. discriminate.
Qed.
Lemma axis_far lo hi o d s e : axis lo hi o d -> Le s e -> Finite e -> cov (near lo hi o d) (Le (near lo hi o d) s) -> tx e = tx (far lo hi o d) -> onface lo hi o d (real_of e) true.
Proof.
  intros X L F C E. pose proof (proj1 (proj1 (real_of_eq _ _ E)) F) as Fn. pose proof (proj2 (real_of_eq _ _ E) F) as V.
  destruct X as [a b D P _ N | D _ _ [M|M] | D _ _ [M|M]]; try (rewrite (Finite_real _ Fn) in M; discriminate).
  - apply near_self in N; [|exact Fn]. split; [exact D|]. destruct P as [(P & _ & ->)|(P & _ & ->)]; [exists hi | exists lo]; rewrite ?Rlt_bool_true, ?Rlt_bool_false by lra; (split; [reflexivity|]); rewrite V; apply near_face; assumption.
  - exfalso. destruct C as [C|C]; [apply NaN_no in C; congruence|]. assert (L' : Le (near lo hi o d) e) by (eapply (Le_trans (num_OrdLaws A)); eassumption). apply Le_tx in L'. rewrite M, (Finite_real _ F) in L'. discriminate.
Qed.
Lemma at_plus (x y m c k : R) : Rabs (x - y) <= c -> Rabs (y - k) <= m -> Rabs (x - k) <= m + c.
Proof. intros. replace (x - k) with ((x - y) + (y - k)) by ring. eapply Rle_trans; [apply Rabs_triang|]. lra. Qed.
End H.
Lemma C86_entry_on_near_face_2d_pf : forall (A : arith) (b : BoundingBox2 (num A)) (r : Ray2 (num A)) (s e : num A), Ordered2 b ->
  VFinite2 (p2_sub (bb2_min b) (r2_origin r)) -> VFinite2 (p2_sub (bb2_max b) (r2_origin r)) -> VFinite2 (r2_direction r) ->
  bb2_intersect_ray b r = Some (s, e) -> Finite s -> Lt szero s ->
  exists d, let o := real_of (coord2 (r2_origin r) d) in let v := real_of (vcoord2 (r2_direction r) d) in
    v <> 0 /\ exists face, (0 < v -> face = coord2 (bb2_min b) d) /\ (v < 0 -> face = coord2 (bb2_max b) d) /\
    let w := 3 * unit_roundoff A * Rabs (real_of face - o) + min_subnormal A * Rabs v in
    Rabs (o + real_of s * v - real_of face) <= w /\
    (Finite (coord2 (r2_at r s) d) ->
     Rabs (real_of (coord2 (r2_at r s) d) - real_of face) <= w + (((1 + unit_roundoff A) ^ 2 - 1) * (Rabs o + Rabs v * Rabs (real_of s)) + min_subnormal A)).
Proof.
  intros A b r s e O F1 F2 F3 H Fs S. destruct (range_some2 b r s e H) as (L & (l & (S0 & S1 & S2) & Sl) & (l' & (_ & E1 & _) & El)).
  destruct S2 as [Z|(m & I & E)]. { exfalso. unfold Lt in S. rewrite tx_lt, Z, tx_0 in S. apply xlt_fin in S. lra. }
  apply Sl in I. destruct I as [d ->]. destruct (axis_near _ _ _ _ s e (axes2 b r O F1 F2 F3 d) S0 L Fs) as (D & f & Ef & B); [apply E1, El; now exists d | exact E|].
  exists d. cbv zeta. split; [exact D|]. exists f. split; [intros P; rewrite Rlt_bool_true in Ef by exact P; exact Ef|]. split; [intros P; rewrite Rlt_bool_false in Ef by lra; exact Ef|]. split; [exact B|].
  intros F. eapply at_plus; [|exact B]. rewrite (Rmult_comm (real_of s)). destruct d; exact (C59_ray_at_accurate_2d_pf A r s _ F).
Qed.
Lemma C86_entry_on_near_face_3d_pf : forall (A : arith) (b : BoundingBox3 (num A)) (r : Ray3 (num A)) (s e : num A), Ordered3 b ->
  VFinite3 (p3_sub (bb3_min b) (r3_origin r)) -> VFinite3 (p3_sub (bb3_max b) (r3_origin r)) -> VFinite3 (r3_direction r) ->
  bb3_intersect_ray b r = Some (s, e) -> Finite s -> Lt szero s ->
  exists d, let o := real_of (coord3 (r3_origin r) d) in let v := real_of (vcoord3 (r3_direction r) d) in
    v <> 0 /\ exists face, (0 < v -> face = coord3 (bb3_min b) d) /\ (v < 0 -> face = coord3 (bb3_max b) d) /\
    let w := 3 * unit_roundoff A * Rabs (real_of face - o) + min_subnormal A * Rabs v in
    Rabs (o + real_of s * v - real_of face) <= w /\
    (Finite (coord3 (r3_at r s) d) ->
     Rabs (real_of (coord3 (r3_at r s) d) - real_of face) <= w + (((1 + unit_roundoff A) ^ 2 - 1) * (Rabs o + Rabs v * Rabs (real_of s)) + min_subnormal A)).
Proof.
  intros A b r s e O F1 F2 F3 H Fs S. destruct (range_some3 b r s e H) as (L & (l & (S0 & S1 & S2) & Sl) & (l' & (_ & E1 & _) & El)).
  destruct S2 as [Z|(m & I & E)]. { exfalso. unfold Lt in S. rewrite tx_lt, Z, tx_0 in S. apply xlt_fin in S. lra. }
  apply Sl in I. destruct I as [d ->]. destruct (axis_near _ _ _ _ s e (axes3 b r O F1 F2 F3 d) S0 L Fs) as (D & f & Ef & B); [apply E1, El; now exists d | exact E|].
  exists d. cbv zeta. split; [exact D|]. exists f. split; [intros P; rewrite Rlt_bool_true in Ef by exact P; exact Ef|]. split; [intros P; rewrite Rlt_bool_false in Ef by lra; exact Ef|]. split; [exact B|].
  intros F. eapply at_plus; [|exact B]. rewrite (Rmult_comm (real_of s)). destruct d; exact (C59_ray_at_accurate_3d_pf A r s _ F).
Qed.
Lemma C86_exit_on_far_face_2d_pf : forall (A : arith) (b : BoundingBox2 (num A)) (r : Ray2 (num A)) (s e : num A), Ordered2 b ->
  VFinite2 (p2_sub (bb2_min b) (r2_origin r)) -> VFinite2 (p2_sub (bb2_max b) (r2_origin r)) -> VFinite2 (r2_direction r) ->
  bb2_intersect_ray b r = Some (s, e) -> Finite e ->
  exists d, let o := real_of (coord2 (r2_origin r) d) in let v := real_of (vcoord2 (r2_direction r) d) in
    v <> 0 /\ exists face, (0 < v -> face = coord2 (bb2_max b) d) /\ (v < 0 -> face = coord2 (bb2_min b) d) /\
    let w := 3 * unit_roundoff A * Rabs (real_of face - o) + min_subnormal A * Rabs v in
    Rabs (o + real_of e * v - real_of face) <= w /\
    (Finite (coord2 (r2_at r e) d) ->
     Rabs (real_of (coord2 (r2_at r e) d) - real_of face) <= w + (((1 + unit_roundoff A) ^ 2 - 1) * (Rabs o + Rabs v * Rabs (real_of e)) + min_subnormal A)).
Proof.
  intros A b r s e O F1 F2 F3 H Fe. destruct (range_some2 b r s e H) as (L & (l & (S0 & S1 & S2) & Sl) & (l' & (_ & E1 & E2) & El)).
  destruct E2 as [Z|(m & I & E)]. { exfalso. rewrite (Finite_real _ Fe) in Z. discriminate. }
  apply El in I. destruct I as [d ->]. destruct (axis_far _ _ _ _ s e (axes2 b r O F1 F2 F3 d) L Fe) as (D & f & Ef & B); [apply S1, Sl; now exists d | exact E|].
  exists d. cbv zeta. split; [exact D|]. exists f. split; [intros P; rewrite Rlt_bool_true in Ef by exact P; exact Ef|]. split; [intros P; rewrite Rlt_bool_false in Ef by lra; exact Ef|]. split; [exact B|].
  intros F. eapply at_plus; [|exact B]. rewrite (Rmult_comm (real_of e)). destruct d; exact (C59_ray_at_accurate_2d_pf A r e _ F).
Qed.
Lemma C86_exit_on_far_face_3d_pf : forall (A : arith) (b : BoundingBox3 (num A)) (r : Ray3 (num A)) (s e : num A), Ordered3 b ->
  VFinite3 (p3_sub (bb3_min b) (r3_origin r)) -> VFinite3 (p3_sub (bb3_max b) (r3_origin r)) -> VFinite3 (r3_direction r) ->
  bb3_intersect_ray b r = Some (s, e) -> Finite e ->
  exists d, let o := real_of (coord3 (r3_origin r) d) in let v := real_of (vcoord3 (r3_direction r) d) in
    v <> 0 /\ exists face, (0 < v -> face = coord3 (bb3_max b) d) /\ (v < 0 -> face = coord3 (bb3_min b) d) /\
    let w := 3 * unit_roundoff A * Rabs (real_of face - o) + min_subnormal A * Rabs v in
    Rabs (o + real_of e * v - real_of face) <= w /\
    (Finite (coord3 (r3_at r e) d) ->
     Rabs (real_of (coord3 (r3_at r e) d) - real_of face) <= w + (((1 + unit_roundoff A) ^ 2 - 1) * (Rabs o + Rabs v * Rabs (real_of e)) + min_subnormal A)).
Proof.
  intros A b r s e O F1 F2 F3 H Fe. destruct (range_some3 b r s e H) as (L & (l & (S0 & S1 & S2) & Sl) & (l' & (_ & E1 & E2) & El)).
  destruct E2 as [Z|(m & I & E)]. { exfalso. rewrite (Finite_real _ Fe) in Z. discriminate. }
  apply El in I. destruct I as [d ->]. destruct (axis_far _ _ _ _ s e (axes3 b r O F1 F2 F3 d) L Fe) as (D & f & Ef & B); [apply S1, Sl; now exists d | exact E|].
  exists d. cbv zeta. split; [exact D|]. exists f. split; [intros P; rewrite Rlt_bool_true in Ef by exact P; exact Ef|]. split; [intros P; rewrite Rlt_bool_false in Ef by lra; exact Ef|]. split; [exact B|].
  intros F. eapply at_plus; [|exact B]. rewrite (Rmult_comm (real_of e)). destruct d; exact (C59_ray_at_accurate_3d_pf A r e _ F).
Qed.
Lemma C86_computed_points_near_box_2d_pf : forall (A : arith) (b : BoundingBox2 (num A)) (r : Ray2 (num A)) (s e t : num A), Ordered2 b ->
  VFinite2 (p2_sub (bb2_min b) (r2_origin r)) -> VFinite2 (p2_sub (bb2_max b) (r2_origin r)) -> VFinite2 (r2_direction r) ->
  bb2_intersect_ray b r = Some (s, e) -> Finite e -> Le s t -> Le t e ->
  forall d, Finite (coord2 (r2_at r t) d) ->
  let o := real_of (coord2 (r2_origin r) d) in let v := real_of (vcoord2 (r2_direction r) d) in
  let w := fun face => 3 * unit_roundoff A * Rabs (real_of face - o) + min_subnormal A * Rabs v + (((1 + unit_roundoff A) ^ 2 - 1) * (Rabs o + Rabs v * Rabs (real_of t)) + min_subnormal A) in
  real_of (coord2 (bb2_min b) d) - w (coord2 (bb2_min b) d) <= real_of (coord2 (r2_at r t) d) <= real_of (coord2 (bb2_max b) d) + w (coord2 (bb2_max b) d).
Proof.
  intros A b r s e t O F1 F2 F3 H Fe L1 L2 d F o v w.
  assert (S0 : Le szero s) by (destruct (range_some2 b r s e H) as (_ & (l & (S0 & _) & _) & _); exact S0).
  assert (Fs : Finite s). { apply Finite_tx. apply Le_tx in S0. assert (L : Le s e) by (eapply (Le_trans (num_OrdLaws A)); eassumption). apply Le_tx in L. rewrite tx_0 in S0. rewrite (Finite_real e Fe) in L. destruct (tx s); try discriminate. eauto. }
  assert (Ft : Finite t). { apply Finite_tx. pose proof L1 as K1. pose proof L2 as K2. apply Le_tx in K1, K2. rewrite (Finite_real s Fs) in K1. rewrite (Finite_real e Fe) in K2. destruct (tx t); try discriminate. eauto. }
  pose proof (C72_range_near_box_2d_pf A b r s e O F1 F2 F3 H Fe (real_of t) (conj (proj1 (Le_real _ _ Fs Ft) L1) (proj1 (Le_real _ _ Ft Fe) L2)) d) as B.
  assert (E : Rabs (real_of (coord2 (r2_at r t) d) - (o + v * real_of t)) <= ((1 + unit_roundoff A) ^ 2 - 1) * (Rabs o + Rabs v * Rabs (real_of t)) + min_subnormal A) by (unfold o, v; destruct d; exact (C59_ray_at_accurate_2d_pf A r t _ F)).
  cbv beta in B. fold o v in B. apply Rabs_le_inv in E. rewrite (Rmult_comm (real_of t)) in B. unfold w. lra.
Qed.
Lemma C86_computed_points_near_box_3d_pf : forall (A : arith) (b : BoundingBox3 (num A)) (r : Ray3 (num A)) (s e t : num A), Ordered3 b ->
  VFinite3 (p3_sub (bb3_min b) (r3_origin r)) -> VFinite3 (p3_sub (bb3_max b) (r3_origin r)) -> VFinite3 (r3_direction r) ->
  bb3_intersect_ray b r = Some (s, e) -> Finite e -> Le s t -> Le t e ->
  forall d, Finite (coord3 (r3_at r t) d) ->
  let o := real_of (coord3 (r3_origin r) d) in let v := real_of (vcoord3 (r3_direction r) d) in
  let w := fun face => 3 * unit_roundoff A * Rabs (real_of face - o) + min_subnormal A * Rabs v + (((1 + unit_roundoff A) ^ 2 - 1) * (Rabs o + Rabs v * Rabs (real_of t)) + min_subnormal A) in
  real_of (coord3 (bb3_min b) d) - w (coord3 (bb3_min b) d) <= real_of (coord3 (r3_at r t) d) <= real_of (coord3 (bb3_max b) d) + w (coord3 (bb3_max b) d).
Proof.
  intros A b r s e t O F1 F2 F3 H Fe L1 L2 d F o v w.
  assert (S0 : Le szero s) by (destruct (range_some3 b r s e H) as (_ & (l & (S0 & _) & _) & _); exact S0).
  assert (Fs : Finite s). { apply Finite_tx. apply Le_tx in S0. assert (L : Le s e) by (eapply (Le_trans (num_OrdLaws A)); eassumption). apply Le_tx in L. rewrite tx_0 in S0. rewrite (Finite_real e Fe) in L. destruct (tx s); try discriminate. eauto. }
  assert (Ft : Finite t). { apply Finite_tx. pose proof L1 as K1. pose proof L2 as K2. apply Le_tx in K1, K2. rewrite (Finite_real s Fs) in K1. rewrite (Finite_real e Fe) in K2. destruct (tx t); try discriminate. eauto. }
  pose proof (C72_range_near_box_3d_pf A b r s e O F1 F2 F3 H Fe (real_of t) (conj (proj1 (Le_real _ _ Fs Ft) L1) (proj1 (Le_real _ _ Ft Fe) L2)) d) as B.
  assert (E : Rabs (real_of (coord3 (r3_at r t) d) - (o + v * real_of t)) <= ((1 + unit_roundoff A) ^ 2 - 1) * (Rabs o + Rabs v * Rabs (real_of t)) + min_subnormal A) by (unfold o, v; destruct d; exact (C59_ray_at_accurate_3d_pf A r t _ F)).
  cbv beta in B. fold o v in B. apply Rabs_le_inv in E. rewrite (Rmult_comm (real_of t)) in B. unfold w. lra.
Qed.
