(** More structural proofs. *)
From Coq Require Import Bool NArith List Lia.
From Verif Require Import Scalar Types Vector2 Vector3 Point2 Point3 Ray BoundingBox2 BoundingBox3 Transform2 Transform3
  OrdLaws SpecOrder SpecStruct OrderProofs Struct.
Import ListNotations.

Section Struct.
Context {S : Type} {O : ScalarOps S}.
Lemma p2_permute_coord (p : Point2 S) dx dy : coord2 (p2_permute p dx dy) D2X = coord2 p dx /\ coord2 (p2_permute p dx dy) D2Y = coord2 p dy.
Proof. repeat split; cbn; apply p2_index_coord. Qed.
Lemma v2_permute_coord (p : Vector2 S) dx dy : vcoord2 (v2_permute p dx dy) D2X = vcoord2 p dx /\ vcoord2 (v2_permute p dx dy) D2Y = vcoord2 p dy.
Proof. repeat split; cbn; apply v2_index_coord. Qed.
Lemma d2_eq_spec (a b : Dimension2) : d2_eq a b = true <-> a = b.
Proof. destruct a, b; cbn; split; congruence. Qed.
Lemma v2_axis_coord (d d' : Dimension2) : vcoord2 (v2_axis d : Vector2 S) d' = if d2_eq d d' then sone else szero.
Proof. now destruct d, d'. Qed.
Lemma bb2_corner_inj prof (b : BoundingBox2 S) i j : (i < 4)%N -> (j < 4)%N ->
  (forall d, coord2 (bb2_min b) d <> coord2 (bb2_max b) d) -> bb2_corner prof b i = bb2_corner prof b j -> i = j.
Proof.
  intros Hi Hj H E. apply bb2_corner_distinct; [assumption|assumption|]. intros d.
  destruct (bb2_corner_ok prof b i (or_intror Hi)) as (p & E1 & P1).
  destruct (bb2_corner_ok prof b j (or_intror Hj)) as (q & E2 & P2).
  assert (p = q) as <- by congruence. specialize (P1 d). specialize (P2 d). specialize (H d). rewrite P1 in P2.
  destruct (N.testbit i (bit2 d)), (N.testbit j (bit2 d)); congruence.
Qed.
Lemma bb2_corner_inside (L : OrdLaws O) prof (b : BoundingBox2 S) i p : Ordered2 b -> bb2_corner prof b i = Ret p -> In2 p b.
Proof.
  intros H E.
  assert (C : debug_assertions prof = false \/ (i < 4)%N).
  { destruct (debug_assertions prof) eqn:P; [right | now left].
    destruct (N.lt_ge_cases i 4); [assumption|]. rewrite bb2_corner_panic in E by assumption. discriminate. }
  destruct (bb2_corner_ok prof b i C) as (q & E1 & P1). assert (q = p) as -> by congruence.
  split; intros d; specialize (P1 d); specialize (H d); rewrite P1; destruct (N.testbit i (bit2 d)); try exact H;
  apply (Le_refl L); apply (Le_nan L _ _ H).
Qed.
Lemma p3_permute_coord (p : Point3 S) dx dy dz : coord3 (p3_permute p dx dy dz) D3X = coord3 p dx /\ coord3 (p3_permute p dx dy dz) D3Y = coord3 p dy /\ coord3 (p3_permute p dx dy dz) D3Z = coord3 p dz.
Proof. repeat split; cbn; apply p3_index_coord. Qed.
Lemma v3_permute_coord (p : Vector3 S) dx dy dz : vcoord3 (v3_permute p dx dy dz) D3X = vcoord3 p dx /\ vcoord3 (v3_permute p dx dy dz) D3Y = vcoord3 p dy /\ vcoord3 (v3_permute p dx dy dz) D3Z = vcoord3 p dz.
Proof. repeat split; cbn; apply v3_index_coord. Qed.
Lemma d3_eq_spec (a b : Dimension3) : d3_eq a b = true <-> a = b.
Proof. destruct a, b; cbn; split; congruence. Qed.
Lemma v3_axis_coord (d d' : Dimension3) : vcoord3 (v3_axis d : Vector3 S) d' = if d3_eq d d' then sone else szero.
Proof. now destruct d, d'. Qed.
Lemma bb3_corner_inj prof (b : BoundingBox3 S) i j : (i < 8)%N -> (j < 8)%N ->
  (forall d, coord3 (bb3_min b) d <> coord3 (bb3_max b) d) -> bb3_corner prof b i = bb3_corner prof b j -> i = j.
Proof.
  intros Hi Hj H E. apply bb3_corner_distinct; [assumption|assumption|]. intros d.
  destruct (bb3_corner_ok prof b i (or_intror Hi)) as (p & E1 & P1).
  destruct (bb3_corner_ok prof b j (or_intror Hj)) as (q & E2 & P2).
  assert (p = q) as <- by congruence. specialize (P1 d). specialize (P2 d). specialize (H d). rewrite P1 in P2.
  destruct (N.testbit i (bit3 d)), (N.testbit j (bit3 d)); congruence.
Qed.
Lemma bb3_corner_inside (L : OrdLaws O) prof (b : BoundingBox3 S) i p : Ordered3 b -> bb3_corner prof b i = Ret p -> In3 p b.
Proof.
  intros H E.
  assert (C : debug_assertions prof = false \/ (i < 8)%N).
  { destruct (debug_assertions prof) eqn:P; [right | now left].
    destruct (N.lt_ge_cases i 8); [assumption|]. rewrite bb3_corner_panic in E by assumption. discriminate. }
  destruct (bb3_corner_ok prof b i C) as (q & E1 & P1). assert (q = p) as -> by congruence.
  split; intros d; specialize (P1 d); specialize (H d); rewrite P1; destruct (N.testbit i (bit3 d)); try exact H;
  apply (Le_refl L); apply (Le_nan L _ _ H).
Qed.

Lemma t2_inverse_invol (t : Transform2 S) : t2_inverse (t2_inverse t) = t.
Proof. now destruct t. Qed.
Lemma t3_inverse_invol (t : Transform3 S) : t3_inverse (t3_inverse t) = t.
Proof. now destruct t. Qed.
Lemma t2_try_from_spec (m : Matrix3x3 S) :
  (forall t, t2_try_from m = Ok t <-> m3_inverse m = Ok (t2_inv t) /\ t2_forward t = m) /\
  (t2_try_from m = Err <-> m3_inverse m = Err).
Proof.
  unfold t2_try_from. destruct (m3_inverse m) as [i|]; split; try intros t; split; try congruence; try (intros [? ?]; congruence).
  - intros [= <-]. auto.
  - destruct t as [fw iv]. cbn. intros [[= ->] ->]. reflexivity.
Qed.

(* the 4x4 inverse never panics: all its element reads are in range *)
Lemma m4_get_in prof (m : Matrix4x4 S) r c : (r < 4)%N -> (c < 4)%N -> exists x, m4_get prof m r c = Ret x.
Proof. intros Hr Hc. destruct (m4_get_mut_spec prof m r c (fun x => x) Hr Hc) as (x & _ & E & _). eauto. Qed.
Lemma u32_add_small prof a b : (a < 100)%N -> (b < 100)%N -> u32_add prof a b = Ret (a + b)%N.
Proof. intros Ha Hb. unfold u32_add. rewrite (proj2 (N.ltb_lt (a + b) u32_modulus)); [reflexivity | unfold u32_modulus; lia]. Qed.
Lemma m4_sub_ret prof (m : Matrix4x4 S) i j r c : (r < 3)%N -> (c < 3)%N -> exists x, m4_sub prof m i j r c = Ret x.
Proof.
  intros Hr Hc. unfold m4_sub. rewrite (u32_add_small prof r 1), (u32_add_small prof c 1) by lia.
  destruct (N.ltb_spec r i), (N.ltb_spec c j); cbn [obind]; apply m4_get_in; lia.
Qed.
Lemma m4_cofactor_ret prof (m : Matrix4x4 S) i j : (i < 4)%N -> (j < 4)%N -> exists x, m4_cofactor prof m i j = Ret x.
Proof.
  intros Hi Hj. unfold m4_cofactor. rewrite (u32_add_small prof i j) by lia. cbn [obind].
  repeat match goal with |- context [m4_sub prof m i j ?r ?c] =>
    let E := fresh in destruct (m4_sub_ret prof m i j r c eq_refl eq_refl) as [? E]; rewrite E; cbn [obind] end.
  eauto.
Qed.
Lemma m4_adjugate_ret prof (m : Matrix4x4 S) : exists x, m4_adjugate prof m = Ret x.
Proof.
  unfold m4_adjugate.
  repeat match goal with |- context [m4_cofactor prof m ?r ?c] =>
    let E := fresh in destruct (m4_cofactor_ret prof m r c eq_refl eq_refl) as [? E]; rewrite E; cbn [obind] end.
  eauto.
Qed.
Lemma m4_inverse_ret prof (m : Matrix4x4 S) : exists x, m4_inverse prof m = Ret x.
Proof. unfold m4_inverse. destruct (m4_adjugate_ret prof m) as [a ->]. cbn [obind]. eauto. Qed.
Lemma t3_try_from_spec prof (m : Matrix4x4 S) :
  (forall t, t3_try_from prof m = Ret (Ok t) <-> m4_inverse prof m = Ret (Ok (t3_inv t)) /\ t3_forward t = m) /\
  (t3_try_from prof m = Ret Err <-> m4_inverse prof m = Ret Err) /\
  t3_try_from prof m <> Panic.
Proof.
  unfold t3_try_from. destruct (m4_inverse_ret prof m) as [r E]. rewrite E. cbn [obind].
  destruct r as [i|]; (split; [|split]); try intros t; try split; try congruence; try (intros [? ?]; congruence).
  - intros [= <-]. auto.
  - destruct t as [fw iv]. cbn. intros [[= ->] ->]. reflexivity.
Qed.
End Struct.
