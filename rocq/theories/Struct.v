(** Structural proofs: no law of arithmetic is used, so they hold for every scalar type. *)
From Coq Require Import Bool NArith List Lia.
From Verif Require Import Scalar Types Vector2 Vector3 Point2 Point3 Ray BoundingBox2 BoundingBox3 Transform2 Transform3 SpecOrder SpecStruct.
Import ListNotations.

Lemma land_bit i k : (N.land i (2 ^ k) =? 0)%N = negb (N.testbit i k).
Proof.
  destruct (N.testbit i k) eqn:E; cbn [negb].
  - apply N.eqb_neq. intros H. apply (f_equal (fun x => N.testbit x k)) in H.
    rewrite N.land_spec, N.pow2_bits_true, N.bits_0, E in H. discriminate.
  - apply N.eqb_eq. apply N.bits_inj. intros j. rewrite N.land_spec, N.bits_0.
    destruct (N.eq_dec k j) as [<-|H]; [now rewrite E | now rewrite N.pow2_bits_false, andb_false_r].
Qed.

Lemma land1 i : (N.land i 1 =? 0)%N = negb (N.testbit i 0). Proof. exact (land_bit i 0). Qed.
Lemma land2 i : (N.land i 2 =? 0)%N = negb (N.testbit i 1). Proof. exact (land_bit i 1). Qed.
Lemma land4 i : (N.land i 4 =? 0)%N = negb (N.testbit i 2). Proof. exact (land_bit i 2). Qed.

Section Struct.
Context {S : Type} {O : ScalarOps S}.

(** ** 2D *)
Lemma bb2_corner_ok prof (b : BoundingBox2 S) i : debug_assertions prof = false \/ (i < 4)%N ->
  exists p, bb2_corner prof b i = Ret p /\
    forall d, coord2 p d = if N.testbit i (bit2 d) then coord2 (bb2_max b) d else coord2 (bb2_min b) d.
Proof.
  intros H. unfold bb2_corner, debug_assert.
  replace (debug_assertions prof && negb (i <? 4)%N)%bool with false.
  - cbn [obind]. eexists; split; [reflexivity|].
    rewrite !land1, !land2. intros []; cbn [coord2 p2_new p2x p2y bit2]; match goal with |- context [N.testbit i ?k] => now destruct (N.testbit i k) end.
  - destruct H as [-> | H]; [reflexivity|]. apply N.ltb_lt in H. rewrite H. now rewrite andb_false_r.
Qed.
Lemma bb2_corner_panic prof (b : BoundingBox2 S) i : debug_assertions prof = true -> (4 <= i)%N -> bb2_corner prof b i = Panic.
Proof.
  intros H1 H2. unfold bb2_corner, debug_assert. apply N.ltb_ge in H2. now rewrite H1, H2.
Qed.
Lemma bb2_corner_mod prof (b : BoundingBox2 S) i : debug_assertions prof = false -> bb2_corner prof b i = bb2_corner prof b (i mod 4).
Proof.
  intros H. unfold bb2_corner, debug_assert. rewrite H. cbn [andb obind].
  change 4%N with (2 ^ 2)%N. rewrite !land1, !land2, !N.mod_pow2_bits_low by reflexivity. reflexivity.
Qed.
Lemma bb2_corner_enum (c : Dimension2 -> bool) :
  exists i, (i < 4)%N /\ (forall d, N.testbit i (bit2 d) = c d) /\
    forall j, (j < 4)%N -> (forall d, N.testbit j (bit2 d) = c d) -> j = i.
Proof.
  exists ((if c D2X then 1 else 0) + (if c D2Y then 2 else 0))%N.
  split; [destruct (c D2X), (c D2Y); reflexivity|]. split.
  - intros d. destruct (c D2X) eqn:?, (c D2Y) eqn:?; destruct d; symmetry; assumption.
  - intros j Hj Hd. assert (Hc : (j = 0 \/ j = 1 \/ j = 2 \/ j = 3)%N) by lia.
    pose proof (Hd D2X) as HX. pose proof (Hd D2Y) as HY. 
    revert HX HY . clear Hd. repeat destruct Hc as [-> | Hc]; try subst j; cbn; destruct (c D2X), (c D2Y); cbn; congruence.
Qed.
Lemma bb2_corner_distinct i j : (i < 4)%N -> (j < 4)%N -> (forall d, N.testbit i (bit2 d) = N.testbit j (bit2 d)) -> i = j.
Proof.
  intros Hi Hj H. destruct (bb2_corner_enum (fun d => N.testbit j (bit2 d))) as (k & _ & _ & U).
  rewrite (U i Hi H), (U j Hj); reflexivity.
Qed.

(* index stores *)
Lemma p2_index_coord (p : Point2 S) d : p2_index p d = coord2 p d.
Proof. now destruct d. Qed.
Lemma v2_index_coord (p : Vector2 S) d : v2_index p d = vcoord2 p d.
Proof. now destruct d. Qed.
Lemma p2_index_history ws (p : Point2 S) d :
  p2_index (fold_left (fun q w => p2_index_set q (fst w) (snd w (p2_index q (fst w)))) ws p) d = replay d2_eq ws d (p2_index p d).
Proof.
  revert p. induction ws as [|[k f] ws IH]; intros p; [reflexivity|].
  cbn [fold_left replay fst snd]. rewrite IH. f_equal. now destruct k, d.
Qed.
Lemma v2_index_history ws (p : Vector2 S) d :
  v2_index (fold_left (fun q w => v2_index_set q (fst w) (snd w (v2_index q (fst w)))) ws p) d = replay d2_eq ws d (v2_index p d).
Proof.
  revert p. induction ws as [|[k f] ws IH]; intros p; [reflexivity|].
  cbn [fold_left replay fst snd]. rewrite IH. f_equal. now destruct k, d.
Qed.

(* compound assignment *)
Lemma p2_assign (p : Point2 S) v s :
  p2_add_assign p v = p2_add p v /\ p2_sub_assign p v = p2_sub_v p v /\
  p2_mul_assign p s = p2_mul p s /\ p2_div_assign p s = p2_div p s.
Proof. repeat split. Qed.
Lemma v2_assign (p : Vector2 S) v s :
  v2_add_assign p v = v2_add p v /\ v2_sub_assign p v = v2_sub p v /\
  v2_mul_assign p s = v2_mul p s /\ v2_div_assign p s = v2_div p s.
Proof. repeat split. Qed.
(** ** 3D *)
Lemma bb3_corner_ok prof (b : BoundingBox3 S) i : debug_assertions prof = false \/ (i < 8)%N ->
  exists p, bb3_corner prof b i = Ret p /\
    forall d, coord3 p d = if N.testbit i (bit3 d) then coord3 (bb3_max b) d else coord3 (bb3_min b) d.
Proof.
  intros H. unfold bb3_corner, debug_assert.
  replace (debug_assertions prof && negb (i <? 8)%N)%bool with false.
  - cbn [obind]. eexists; split; [reflexivity|].
    rewrite !land1, !land2, !land4. intros []; cbn [coord3 p3_new p3x p3y p3z bit3]; match goal with |- context [N.testbit i ?k] => now destruct (N.testbit i k) end.
  - destruct H as [-> | H]; [reflexivity|]. apply N.ltb_lt in H. rewrite H. now rewrite andb_false_r.
Qed.
Lemma bb3_corner_panic prof (b : BoundingBox3 S) i : debug_assertions prof = true -> (8 <= i)%N -> bb3_corner prof b i = Panic.
Proof.
  intros H1 H2. unfold bb3_corner, debug_assert. apply N.ltb_ge in H2. now rewrite H1, H2.
Qed.
Lemma bb3_corner_mod prof (b : BoundingBox3 S) i : debug_assertions prof = false -> bb3_corner prof b i = bb3_corner prof b (i mod 8).
Proof.
  intros H. unfold bb3_corner, debug_assert. rewrite H. cbn [andb obind].
  change 8%N with (2 ^ 3)%N. rewrite !land1, !land2, !land4, !N.mod_pow2_bits_low by reflexivity. reflexivity.
Qed.
Lemma bb3_corner_enum (c : Dimension3 -> bool) :
  exists i, (i < 8)%N /\ (forall d, N.testbit i (bit3 d) = c d) /\
    forall j, (j < 8)%N -> (forall d, N.testbit j (bit3 d) = c d) -> j = i.
Proof.
  exists ((if c D3X then 1 else 0) + (if c D3Y then 2 else 0) + (if c D3Z then 4 else 0))%N.
  split; [destruct (c D3X), (c D3Y), (c D3Z); reflexivity|]. split.
  - intros d. destruct (c D3X) eqn:?, (c D3Y) eqn:?, (c D3Z) eqn:?; destruct d; symmetry; assumption.
  - intros j Hj Hd. assert (Hc : (j = 0 \/ j = 1 \/ j = 2 \/ j = 3 \/ j = 4 \/ j = 5 \/ j = 6 \/ j = 7)%N) by lia.
    pose proof (Hd D3X) as HX. pose proof (Hd D3Y) as HY. pose proof (Hd D3Z) as HZ.
    revert HX HY HZ. clear Hd. repeat destruct Hc as [-> | Hc]; try subst j; cbn; destruct (c D3X), (c D3Y), (c D3Z); cbn; congruence.
Qed.
Lemma bb3_corner_distinct i j : (i < 8)%N -> (j < 8)%N -> (forall d, N.testbit i (bit3 d) = N.testbit j (bit3 d)) -> i = j.
Proof.
  intros Hi Hj H. destruct (bb3_corner_enum (fun d => N.testbit j (bit3 d))) as (k & _ & _ & U).
  rewrite (U i Hi H), (U j Hj); reflexivity.
Qed.

(* index stores *)
Lemma p3_index_coord (p : Point3 S) d : p3_index p d = coord3 p d.
Proof. now destruct d. Qed.
Lemma v3_index_coord (p : Vector3 S) d : v3_index p d = vcoord3 p d.
Proof. now destruct d. Qed.
Lemma p3_index_history ws (p : Point3 S) d :
  p3_index (fold_left (fun q w => p3_index_set q (fst w) (snd w (p3_index q (fst w)))) ws p) d = replay d3_eq ws d (p3_index p d).
Proof.
  revert p. induction ws as [|[k f] ws IH]; intros p; [reflexivity|].
  cbn [fold_left replay fst snd]. rewrite IH. f_equal. now destruct k, d.
Qed.
Lemma v3_index_history ws (p : Vector3 S) d :
  v3_index (fold_left (fun q w => v3_index_set q (fst w) (snd w (v3_index q (fst w)))) ws p) d = replay d3_eq ws d (v3_index p d).
Proof.
  revert p. induction ws as [|[k f] ws IH]; intros p; [reflexivity|].
  cbn [fold_left replay fst snd]. rewrite IH. f_equal. now destruct k, d.
Qed.

(* compound assignment *)
Lemma p3_assign (p : Point3 S) v s :
  p3_add_assign p v = p3_add p v /\ p3_sub_assign p v = p3_sub_v p v /\
  p3_mul_assign p s = p3_mul p s /\ p3_div_assign p s = p3_div p s.
Proof. repeat split. Qed.
Lemma v3_assign (p : Vector3 S) v s :
  v3_add_assign p v = v3_add p v /\ v3_sub_assign p v = v3_sub p v /\
  v3_mul_assign p s = v3_mul p s /\ v3_div_assign p s = v3_div p s.
Proof. repeat split. Qed.

(** ** 3x3 matrices *)
Lemma m3_cases (r c : N) : (r < 3)%N -> (c < 3)%N ->
  exists i, (i < 9)%N /\ i = (3 * r + c)%N /\ forall prof, m3_linear_index prof r c = Ret i.
Proof.
  intros Hr Hc. exists (3 * r + c)%N. split; [lia|]. split; [reflexivity|]. intros prof.
  unfold m3_linear_index, debug_assert, u32_mul, u32_add.
  rewrite (proj2 (N.ltb_lt r 3) Hr), (proj2 (N.ltb_lt c 3) Hc), !andb_false_r. cbn [obind].
  rewrite (N.mul_comm r 3).
  rewrite (proj2 (N.ltb_lt (3 * r) u32_modulus)) by (unfold u32_modulus; lia). cbn [obind].
  rewrite (proj2 (N.ltb_lt (3 * r + c) u32_modulus)) by (unfold u32_modulus; lia). reflexivity.
Qed.
Lemma lt9 (i : N) : (i < 9)%N -> i = 0%N \/ i = 1%N \/ i = 2%N \/ i = 3%N \/ i = 4%N \/ i = 5%N \/ i = 6%N \/ i = 7%N \/ i = 8%N.
Proof. lia. Qed.
Lemma m3_at_nth (m : Matrix3x3 S) i (d : S) : (i < 9)%N -> m3_at m i = Ret (nth (N.to_nat i) (m3_comps m) d).
Proof. intros H. apply lt9 in H. repeat destruct H as [-> | H]; try (subst i); reflexivity. Qed.
Lemma m3_put_spec (m : Matrix3x3 S) i v : (i < 9)%N ->
  exists m', m3_put m i v = Ret m' /\ m3_at m' i = Ret v /\ forall j, j <> i -> m3_at m' j = m3_at m j.
Proof.
  intros H. destruct m. unfold m3_put.
  apply lt9 in H. repeat destruct H as [-> | H]; try (subst i);
    (eexists; split; [reflexivity|]; split; [reflexivity|]; intros j Hj;
     destruct j as [|j]; [try reflexivity; congruence|];
     repeat (destruct j as [j|j|]; try reflexivity; try congruence)).
Qed.
Lemma m3_get_new prof a0 a1 a2 a3 a4 a5 a6 a7 a8 (d : S) r c : (r < 3)%N -> (c < 3)%N ->
  m3_get prof (m3_new a0 a1 a2 a3 a4 a5 a6 a7 a8) r c = Ret (nth (N.to_nat (3 * r + c)) [a0; a1; a2; a3; a4; a5; a6; a7; a8] d).
Proof.
  intros Hr Hc. destruct (m3_cases r c Hr Hc) as (i & Hi & E & H). unfold m3_get. rewrite H. cbn [obind].
  rewrite (m3_at_nth _ _ d Hi), <- E. reflexivity.
Qed.
Lemma m3_get_mut_spec prof (m : Matrix3x3 S) r c f : (r < 3)%N -> (c < 3)%N ->
  exists x m', m3_get prof m r c = Ret x /\ m3_get_mut prof m r c f = Ret m' /\
    forall r' c', (r' < 3)%N -> (c' < 3)%N ->
      m3_get prof m' r' c' = if rc_eq (r, c) (r', c') then Ret (f x) else m3_get prof m r' c'.
Proof.
  intros Hr Hc. destruct (m3_cases r c Hr Hc) as (i & Hi & E & H). unfold m3_get, m3_get_mut.
  rewrite H. cbn [obind]. destruct (m3_at m i) as [x|] eqn:Ex.
  2:{ rewrite (m3_at_nth m i (m3_0 m) Hi) in Ex. discriminate. }
  cbn [obind]. destruct (m3_put_spec m i (f x) Hi) as (m' & P1 & P2 & P3).
  exists x, m'. split; [reflexivity|]. split; [exact P1|].
  intros r' c' Hr' Hc'. destruct (m3_cases r' c' Hr' Hc') as (i' & Hi' & E' & H'). rewrite H'. cbn [obind].
  unfold rc_eq. cbn [fst snd].
  destruct (N.eqb_spec r r'); cbn [andb]; [destruct (N.eqb_spec c c')|].
  - assert (i' = i) as -> by congruence. exact P2.
  - apply P3. lia.
  - apply P3. lia.
Qed.
Lemma m3_set_mut prof (m : Matrix3x3 S) r c v : (r < 3)%N -> (c < 3)%N ->
  m3_set prof m r c v = m3_get_mut prof m r c (fun _ => v).
Proof.
  intros Hr Hc. destruct (m3_cases r c Hr Hc) as (i & Hi & E & H). unfold m3_set, m3_get_mut.
  rewrite H. cbn [obind]. now rewrite (m3_at_nth m i (m3_0 m) Hi).
Qed.
Lemma m3_history prof ws : forall (m : Matrix3x3 S), (forall w, In w ws -> in_range 3 (fst w)) ->
  exists m', run (fun m w => m3_get_mut prof m (fst (fst w)) (snd (fst w)) (snd w)) m ws = Ret m' /\
    forall k, in_range 3 k -> exists x, m3_get prof m (fst k) (snd k) = Ret x /\
      m3_get prof m' (fst k) (snd k) = Ret (replay rc_eq ws k x).
Proof.
  induction ws as [|[[r c] f] ws IH]; intros m Hw.
  - exists m. split; [reflexivity|]. intros [r c] [Hr Hc]. cbn [fst snd] in *.
    destruct (m3_get_mut_spec prof m r c (fun x => x) Hr Hc) as (x & m' & E & _). exists x. now cbn [replay].
  - cbn [run fst snd replay].
    destruct (Hw _ (or_introl eq_refl)) as [Hr Hc]. cbn [fst snd] in Hr, Hc.
    destruct (m3_get_mut_spec prof m r c f Hr Hc) as (x & m1 & E1 & E2 & E3). rewrite E2. cbn [obind].
    destruct (IH m1) as (m' & R & Q). { intros w Hin. apply Hw. now right. }
    exists m'. split; [exact R|]. intros [r' c'] Hk. destruct (Q _ Hk) as (y & Y1 & Y2).
    destruct Hk as [Hr' Hc']. cbn [fst snd] in *. rewrite (E3 r' c' Hr' Hc') in Y1.
    destruct (rc_eq (r, c) (r', c')) eqn:Q1.
    + unfold rc_eq in Q1. cbn [fst snd] in Q1. apply andb_true_iff in Q1. destruct Q1 as [Q1 Q2].
      apply N.eqb_eq in Q1, Q2. subst r' c'. exists x. split; [exact E1|]. rewrite Y2. congruence.
    + exists y. split; assumption.
Qed.
Lemma m3_out_of_range_debug prof (m : Matrix3x3 S) r c (f : S -> S) v : debug_assertions prof = true -> (3 <= r \/ 3 <= c)%N ->
  m3_get prof m r c = Panic /\ m3_get_mut prof m r c f = Panic /\ m3_set prof m r c v = Panic.
Proof.
  intros Hp H. unfold m3_get, m3_get_mut, m3_set.
  replace (m3_linear_index prof r c) with (@Panic N); [auto|].
  unfold m3_linear_index, debug_assert. rewrite Hp. cbn [andb].
  destruct (N.ltb_spec r 3); cbn [negb obind]; [|reflexivity].
  destruct (N.ltb_spec c 3); cbn [negb obind]; [lia|reflexivity].
Qed.
(* release: u32 arithmetic wraps, only the array bounds check remains *)
Lemma m3_get_release (m : Matrix3x3 S) r c (d : S) : 
  m3_get release_profile m r c =
  let i := (((3 * r) mod 2 ^ 32 + c) mod 2 ^ 32)%N in
  if (i <? 9)%N then Ret (nth (N.to_nat i) (m3_comps m) d) else Panic.
Proof.
  assert (M : forall a, (if (a <? u32_modulus)%N then Ret a else Ret (a mod u32_modulus)%N) = Ret (a mod u32_modulus)%N).
  { intros a. destruct (N.ltb_spec a u32_modulus); [now rewrite N.mod_small | reflexivity]. }
  unfold m3_get, m3_linear_index, debug_assert, u32_mul, u32_add.
  cbn [release_profile debug_assertions overflow_checks andb obind]. rewrite M. cbn [obind]. rewrite M. cbn [obind].
  rewrite (N.mul_comm r 3). change (2 ^ 32)%N with u32_modulus. cbv zeta.
  destruct (N.ltb_spec (((3 * r) mod u32_modulus + c) mod u32_modulus) 9) as [Hi|Hi].
  - now apply m3_at_nth.
  - destruct (((3 * r) mod u32_modulus + c) mod u32_modulus)%N as [|j]; [lia|].
    unfold m3_at. repeat (destruct j as [j|j|]; try reflexivity; try (exfalso; lia)).
Qed.
Lemma m3_transpose_get prof (m : Matrix3x3 S) r c : (r < 3)%N -> (c < 3)%N ->
  m3_get prof (m3_transpose m) r c = m3_get prof m c r.
Proof.
  intros Hr Hc.
  destruct (m3_cases r c Hr Hc) as (i & Hi & E & H). destruct (m3_cases c r Hc Hr) as (i' & Hi' & E' & H').
  unfold m3_get. rewrite H, H'. cbn [obind]. subst i i'.
  assert (Kr : (r = 0 \/ r = 1 \/ r = 2)%N) by lia.
  assert (Kc : (c = 0 \/ c = 1 \/ c = 2)%N) by lia.
  repeat destruct Kr as [-> | Kr]; try subst r; repeat destruct Kc as [-> | Kc]; try subst c; reflexivity.
Qed.
Lemma m3_transpose_invol (m : Matrix3x3 S) : m3_transpose (m3_transpose m) = m.
Proof. now destruct m. Qed.
Lemma m3_ext prof (m m' : Matrix3x3 S) :
  (forall r c, (r < 3)%N -> (c < 3)%N -> m3_get prof m r c = m3_get prof m' r c) -> m = m'.
Proof.
  intros H. destruct m, m'.
  pose proof (H 0%N 0%N eq_refl eq_refl) as E0.
  unfold m3_get in E0. destruct (m3_cases 0 0 eq_refl eq_refl) as (i0 & _ & Q0 & L0). rewrite !L0 in E0. subst i0. cbn in E0. injection E0 as E0. clear L0.
  pose proof (H 0%N 1%N eq_refl eq_refl) as E1.
  unfold m3_get in E1. destruct (m3_cases 0 1 eq_refl eq_refl) as (i1 & _ & Q1 & L1). rewrite !L1 in E1. subst i1. cbn in E1. injection E1 as E1. clear L1.
  pose proof (H 0%N 2%N eq_refl eq_refl) as E2.
  unfold m3_get in E2. destruct (m3_cases 0 2 eq_refl eq_refl) as (i2 & _ & Q2 & L2). rewrite !L2 in E2. subst i2. cbn in E2. injection E2 as E2. clear L2.
  pose proof (H 1%N 0%N eq_refl eq_refl) as E3.
  unfold m3_get in E3. destruct (m3_cases 1 0 eq_refl eq_refl) as (i3 & _ & Q3 & L3). rewrite !L3 in E3. subst i3. cbn in E3. injection E3 as E3. clear L3.
  pose proof (H 1%N 1%N eq_refl eq_refl) as E4.
  unfold m3_get in E4. destruct (m3_cases 1 1 eq_refl eq_refl) as (i4 & _ & Q4 & L4). rewrite !L4 in E4. subst i4. cbn in E4. injection E4 as E4. clear L4.
  pose proof (H 1%N 2%N eq_refl eq_refl) as E5.
  unfold m3_get in E5. destruct (m3_cases 1 2 eq_refl eq_refl) as (i5 & _ & Q5 & L5). rewrite !L5 in E5. subst i5. cbn in E5. injection E5 as E5. clear L5.
  pose proof (H 2%N 0%N eq_refl eq_refl) as E6.
  unfold m3_get in E6. destruct (m3_cases 2 0 eq_refl eq_refl) as (i6 & _ & Q6 & L6). rewrite !L6 in E6. subst i6. cbn in E6. injection E6 as E6. clear L6.
  pose proof (H 2%N 1%N eq_refl eq_refl) as E7.
  unfold m3_get in E7. destruct (m3_cases 2 1 eq_refl eq_refl) as (i7 & _ & Q7 & L7). rewrite !L7 in E7. subst i7. cbn in E7. injection E7 as E7. clear L7.
  pose proof (H 2%N 2%N eq_refl eq_refl) as E8.
  unfold m3_get in E8. destruct (m3_cases 2 2 eq_refl eq_refl) as (i8 & _ & Q8 & L8). rewrite !L8 in E8. subst i8. cbn in E8. injection E8 as E8. clear L8.
  clear H. subst. reflexivity.
Qed.

(** ** 4x4 matrices *)
Lemma m4_cases (r c : N) : (r < 4)%N -> (c < 4)%N ->
  exists i, (i < 16)%N /\ i = (4 * r + c)%N /\ forall prof, m4_linear_index prof r c = Ret i.
Proof.
  intros Hr Hc. exists (4 * r + c)%N. split; [lia|]. split; [reflexivity|]. intros prof.
  unfold m4_linear_index, debug_assert, u32_mul, u32_add.
  rewrite (proj2 (N.ltb_lt r 4) Hr), (proj2 (N.ltb_lt c 4) Hc), !andb_false_r. cbn [obind].
  rewrite (N.mul_comm r 4).
  rewrite (proj2 (N.ltb_lt (4 * r) u32_modulus)) by (unfold u32_modulus; lia). cbn [obind].
  rewrite (proj2 (N.ltb_lt (4 * r + c) u32_modulus)) by (unfold u32_modulus; lia). reflexivity.
Qed.
Lemma lt16 (i : N) : (i < 16)%N -> i = 0%N \/ i = 1%N \/ i = 2%N \/ i = 3%N \/ i = 4%N \/ i = 5%N \/ i = 6%N \/ i = 7%N \/ i = 8%N \/ i = 9%N \/ i = 10%N \/ i = 11%N \/ i = 12%N \/ i = 13%N \/ i = 14%N \/ i = 15%N.
Proof. lia. Qed.
Lemma m4_at_nth (m : Matrix4x4 S) i (d : S) : (i < 16)%N -> m4_at m i = Ret (nth (N.to_nat i) (m4_comps m) d).
Proof. intros H. apply lt16 in H. repeat destruct H as [-> | H]; try (subst i); reflexivity. Qed.
Lemma m4_put_spec (m : Matrix4x4 S) i v : (i < 16)%N ->
  exists m', m4_put m i v = Ret m' /\ m4_at m' i = Ret v /\ forall j, j <> i -> m4_at m' j = m4_at m j.
Proof.
  intros H. destruct m. unfold m4_put.
  apply lt16 in H. repeat destruct H as [-> | H]; try (subst i);
    (eexists; split; [reflexivity|]; split; [reflexivity|]; intros j Hj;
     destruct j as [|j]; [try reflexivity; congruence|];
     repeat (destruct j as [j|j|]; try reflexivity; try congruence)).
Qed.
Lemma m4_get_new prof a0 a1 a2 a3 a4 a5 a6 a7 a8 a9 a10 a11 a12 a13 a14 a15 (d : S) r c : (r < 4)%N -> (c < 4)%N ->
  m4_get prof (m4_new a0 a1 a2 a3 a4 a5 a6 a7 a8 a9 a10 a11 a12 a13 a14 a15) r c = Ret (nth (N.to_nat (4 * r + c)) [a0; a1; a2; a3; a4; a5; a6; a7; a8; a9; a10; a11; a12; a13; a14; a15] d).
Proof.
  intros Hr Hc. destruct (m4_cases r c Hr Hc) as (i & Hi & E & H). unfold m4_get. rewrite H. cbn [obind].
  rewrite (m4_at_nth _ _ d Hi), <- E. reflexivity.
Qed.
Lemma m4_get_mut_spec prof (m : Matrix4x4 S) r c f : (r < 4)%N -> (c < 4)%N ->
  exists x m', m4_get prof m r c = Ret x /\ m4_get_mut prof m r c f = Ret m' /\
    forall r' c', (r' < 4)%N -> (c' < 4)%N ->
      m4_get prof m' r' c' = if rc_eq (r, c) (r', c') then Ret (f x) else m4_get prof m r' c'.
Proof.
  intros Hr Hc. destruct (m4_cases r c Hr Hc) as (i & Hi & E & H). unfold m4_get, m4_get_mut.
  rewrite H. cbn [obind]. destruct (m4_at m i) as [x|] eqn:Ex.
  2:{ rewrite (m4_at_nth m i (m4_0 m) Hi) in Ex. discriminate. }
  cbn [obind]. destruct (m4_put_spec m i (f x) Hi) as (m' & P1 & P2 & P3).
  exists x, m'. split; [reflexivity|]. split; [exact P1|].
  intros r' c' Hr' Hc'. destruct (m4_cases r' c' Hr' Hc') as (i' & Hi' & E' & H'). rewrite H'. cbn [obind].
  unfold rc_eq. cbn [fst snd].
  destruct (N.eqb_spec r r'); cbn [andb]; [destruct (N.eqb_spec c c')|].
  - assert (i' = i) as -> by congruence. exact P2.
  - apply P3. lia.
  - apply P3. lia.
Qed.
Lemma m4_set_mut prof (m : Matrix4x4 S) r c v : (r < 4)%N -> (c < 4)%N ->
  m4_set prof m r c v = m4_get_mut prof m r c (fun _ => v).
Proof.
  intros Hr Hc. destruct (m4_cases r c Hr Hc) as (i & Hi & E & H). unfold m4_set, m4_get_mut.
  rewrite H. cbn [obind]. now rewrite (m4_at_nth m i (m4_0 m) Hi).
Qed.
Lemma m4_history prof ws : forall (m : Matrix4x4 S), (forall w, In w ws -> in_range 4 (fst w)) ->
  exists m', run (fun m w => m4_get_mut prof m (fst (fst w)) (snd (fst w)) (snd w)) m ws = Ret m' /\
    forall k, in_range 4 k -> exists x, m4_get prof m (fst k) (snd k) = Ret x /\
      m4_get prof m' (fst k) (snd k) = Ret (replay rc_eq ws k x).
Proof.
  induction ws as [|[[r c] f] ws IH]; intros m Hw.
  - exists m. split; [reflexivity|]. intros [r c] [Hr Hc]. cbn [fst snd] in *.
    destruct (m4_get_mut_spec prof m r c (fun x => x) Hr Hc) as (x & m' & E & _). exists x. now cbn [replay].
  - cbn [run fst snd replay].
    destruct (Hw _ (or_introl eq_refl)) as [Hr Hc]. cbn [fst snd] in Hr, Hc.
    destruct (m4_get_mut_spec prof m r c f Hr Hc) as (x & m1 & E1 & E2 & E3). rewrite E2. cbn [obind].
    destruct (IH m1) as (m' & R & Q). { intros w Hin. apply Hw. now right. }
    exists m'. split; [exact R|]. intros [r' c'] Hk. destruct (Q _ Hk) as (y & Y1 & Y2).
    destruct Hk as [Hr' Hc']. cbn [fst snd] in *. rewrite (E3 r' c' Hr' Hc') in Y1.
    destruct (rc_eq (r, c) (r', c')) eqn:Q1.
    + unfold rc_eq in Q1. cbn [fst snd] in Q1. apply andb_true_iff in Q1. destruct Q1 as [Q1 Q2].
      apply N.eqb_eq in Q1, Q2. subst r' c'. exists x. split; [exact E1|]. rewrite Y2. congruence.
    + exists y. split; assumption.
Qed.
Lemma m4_out_of_range_debug prof (m : Matrix4x4 S) r c (f : S -> S) v : debug_assertions prof = true -> (4 <= r \/ 4 <= c)%N ->
  m4_get prof m r c = Panic /\ m4_get_mut prof m r c f = Panic /\ m4_set prof m r c v = Panic.
Proof.
  intros Hp H. unfold m4_get, m4_get_mut, m4_set.
  replace (m4_linear_index prof r c) with (@Panic N); [auto|].
  unfold m4_linear_index, debug_assert. rewrite Hp. cbn [andb].
  destruct (N.ltb_spec r 4); cbn [negb obind]; [|reflexivity].
  destruct (N.ltb_spec c 4); cbn [negb obind]; [lia|reflexivity].
Qed.
(* release: u32 arithmetic wraps, only the array bounds check remains *)
Lemma m4_get_release (m : Matrix4x4 S) r c (d : S) : 
  m4_get release_profile m r c =
  let i := (((4 * r) mod 2 ^ 32 + c) mod 2 ^ 32)%N in
  if (i <? 16)%N then Ret (nth (N.to_nat i) (m4_comps m) d) else Panic.
Proof.
  assert (M : forall a, (if (a <? u32_modulus)%N then Ret a else Ret (a mod u32_modulus)%N) = Ret (a mod u32_modulus)%N).
  { intros a. destruct (N.ltb_spec a u32_modulus); [now rewrite N.mod_small | reflexivity]. }
  unfold m4_get, m4_linear_index, debug_assert, u32_mul, u32_add.
  cbn [release_profile debug_assertions overflow_checks andb obind]. rewrite M. cbn [obind]. rewrite M. cbn [obind].
  rewrite (N.mul_comm r 4). change (2 ^ 32)%N with u32_modulus. cbv zeta.
  destruct (N.ltb_spec (((4 * r) mod u32_modulus + c) mod u32_modulus) 16) as [Hi|Hi].
  - now apply m4_at_nth.
  - destruct (((4 * r) mod u32_modulus + c) mod u32_modulus)%N as [|j]; [lia|].
    unfold m4_at. repeat (destruct j as [j|j|]; try reflexivity; try (exfalso; lia)).
Qed.
Lemma m4_transpose_get prof (m : Matrix4x4 S) r c : (r < 4)%N -> (c < 4)%N ->
  m4_get prof (m4_transpose m) r c = m4_get prof m c r.
Proof.
  intros Hr Hc.
  destruct (m4_cases r c Hr Hc) as (i & Hi & E & H). destruct (m4_cases c r Hc Hr) as (i' & Hi' & E' & H').
  unfold m4_get. rewrite H, H'. cbn [obind]. subst i i'.
  assert (Kr : (r = 0 \/ r = 1 \/ r = 2 \/ r = 3)%N) by lia.
  assert (Kc : (c = 0 \/ c = 1 \/ c = 2 \/ c = 3)%N) by lia.
  repeat destruct Kr as [-> | Kr]; try subst r; repeat destruct Kc as [-> | Kc]; try subst c; reflexivity.
Qed.
Lemma m4_transpose_invol (m : Matrix4x4 S) : m4_transpose (m4_transpose m) = m.
Proof. now destruct m. Qed.
Lemma m4_ext prof (m m' : Matrix4x4 S) :
  (forall r c, (r < 4)%N -> (c < 4)%N -> m4_get prof m r c = m4_get prof m' r c) -> m = m'.
Proof.
  intros H. destruct m, m'.
  pose proof (H 0%N 0%N eq_refl eq_refl) as E0.
  unfold m4_get in E0. destruct (m4_cases 0 0 eq_refl eq_refl) as (i0 & _ & Q0 & L0). rewrite !L0 in E0. subst i0. cbn in E0. injection E0 as E0. clear L0.
  pose proof (H 0%N 1%N eq_refl eq_refl) as E1.
  unfold m4_get in E1. destruct (m4_cases 0 1 eq_refl eq_refl) as (i1 & _ & Q1 & L1). rewrite !L1 in E1. subst i1. cbn in E1. injection E1 as E1. clear L1.
  pose proof (H 0%N 2%N eq_refl eq_refl) as E2.
  unfold m4_get in E2. destruct (m4_cases 0 2 eq_refl eq_refl) as (i2 & _ & Q2 & L2). rewrite !L2 in E2. subst i2. cbn in E2. injection E2 as E2. clear L2.
  pose proof (H 0%N 3%N eq_refl eq_refl) as E3.
  unfold m4_get in E3. destruct (m4_cases 0 3 eq_refl eq_refl) as (i3 & _ & Q3 & L3). rewrite !L3 in E3. subst i3. cbn in E3. injection E3 as E3. clear L3.
  pose proof (H 1%N 0%N eq_refl eq_refl) as E4.
  unfold m4_get in E4. destruct (m4_cases 1 0 eq_refl eq_refl) as (i4 & _ & Q4 & L4). rewrite !L4 in E4. subst i4. cbn in E4. injection E4 as E4. clear L4.
  pose proof (H 1%N 1%N eq_refl eq_refl) as E5.
  unfold m4_get in E5. destruct (m4_cases 1 1 eq_refl eq_refl) as (i5 & _ & Q5 & L5). rewrite !L5 in E5. subst i5. cbn in E5. injection E5 as E5. clear L5.
  pose proof (H 1%N 2%N eq_refl eq_refl) as E6.
  unfold m4_get in E6. destruct (m4_cases 1 2 eq_refl eq_refl) as (i6 & _ & Q6 & L6). rewrite !L6 in E6. subst i6. cbn in E6. injection E6 as E6. clear L6.
  pose proof (H 1%N 3%N eq_refl eq_refl) as E7.
  unfold m4_get in E7. destruct (m4_cases 1 3 eq_refl eq_refl) as (i7 & _ & Q7 & L7). rewrite !L7 in E7. subst i7. cbn in E7. injection E7 as E7. clear L7.
  pose proof (H 2%N 0%N eq_refl eq_refl) as E8.
  unfold m4_get in E8. destruct (m4_cases 2 0 eq_refl eq_refl) as (i8 & _ & Q8 & L8). rewrite !L8 in E8. subst i8. cbn in E8. injection E8 as E8. clear L8.
  pose proof (H 2%N 1%N eq_refl eq_refl) as E9.
  unfold m4_get in E9. destruct (m4_cases 2 1 eq_refl eq_refl) as (i9 & _ & Q9 & L9). rewrite !L9 in E9. subst i9. cbn in E9. injection E9 as E9. clear L9.
  pose proof (H 2%N 2%N eq_refl eq_refl) as E10.
  unfold m4_get in E10. destruct (m4_cases 2 2 eq_refl eq_refl) as (i10 & _ & Q10 & L10). rewrite !L10 in E10. subst i10. cbn in E10. injection E10 as E10. clear L10.
  pose proof (H 2%N 3%N eq_refl eq_refl) as E11.
  unfold m4_get in E11. destruct (m4_cases 2 3 eq_refl eq_refl) as (i11 & _ & Q11 & L11). rewrite !L11 in E11. subst i11. cbn in E11. injection E11 as E11. clear L11.
  pose proof (H 3%N 0%N eq_refl eq_refl) as E12.
  unfold m4_get in E12. destruct (m4_cases 3 0 eq_refl eq_refl) as (i12 & _ & Q12 & L12). rewrite !L12 in E12. subst i12. cbn in E12. injection E12 as E12. clear L12.
  pose proof (H 3%N 1%N eq_refl eq_refl) as E13.
  unfold m4_get in E13. destruct (m4_cases 3 1 eq_refl eq_refl) as (i13 & _ & Q13 & L13). rewrite !L13 in E13. subst i13. cbn in E13. injection E13 as E13. clear L13.
  pose proof (H 3%N 2%N eq_refl eq_refl) as E14.
  unfold m4_get in E14. destruct (m4_cases 3 2 eq_refl eq_refl) as (i14 & _ & Q14 & L14). rewrite !L14 in E14. subst i14. cbn in E14. injection E14 as E14. clear L14.
  pose proof (H 3%N 3%N eq_refl eq_refl) as E15.
  unfold m4_get in E15. destruct (m4_cases 3 3 eq_refl eq_refl) as (i15 & _ & Q15 & L15). rewrite !L15 in E15. subst i15. cbn in E15. injection E15 as E15. clear L15.
  clear H. subst. reflexivity.
Qed.
End Struct.
