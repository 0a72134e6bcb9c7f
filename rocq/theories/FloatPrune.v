(** Proofs: sweep and prune (C113). *)
From Coq Require Import Bool NArith List Lia Permutation Sorted.
From Verif Require Import Scalar Types Vector2 Vector3 Point2 Point3 Ray BoundingBox2 BoundingBox3 Float
  XReal OrdLaws Arith SpecOrder SpecFloat SpecPrune OrderProofs OrderBox FloatLaws.
Import ListNotations.
Section P.
Context {T : Type}.
Implicit Types (f : T * T -> bool) (l : list T).
Lemma filter_length_app {U} (g : U -> bool) a b : length (filter g (a ++ b)) = (length (filter g a) + length (filter g b))%nat.
Proof. now rewrite filter_app, app_length. Qed.
Lemma filter_perm {U} (g : U -> bool) a b : Permutation a b -> Permutation (filter g a) (filter g b).
Proof.
  induction 1 as [|x a b _ IH|x y a|a b c _ IH1 _ IH2]; cbn.
  - constructor.
  - destruct (g x); [now constructor | assumption].
  - destruct (g x), (g y); try apply Permutation_refl. constructor.
  - now transitivity (filter g b).
Qed.
Lemma pairs_count f l l' : (forall x y, f (x, y) = f (y, x)) -> Permutation l l' -> length (filter f (pairs l)) = length (filter f (pairs l')).
Proof.
  intros Sy. induction 1 as [|x a b P IH|x y a|a b c _ IH1 _ IH2]; cbn [pairs map].
  - reflexivity.
  - rewrite !filter_length_app, IH. f_equal. apply Permutation_length, filter_perm, Permutation_map, P.
  - cbn [app filter]. rewrite (Sy y x). destruct (f (x, y)); cbn [length]; rewrite !filter_length_app; lia.
  - congruence.
Qed.
Lemma in_map_pair (x : T) l a b : In (a, b) (map (pair x) l) <-> a = x /\ In b l.
Proof. rewrite in_map_iff. split; [intros (y & E & I); injection E as <- <-; easy | intros [-> I]; now exists b]. Qed.
Lemma pairs_in l l' a b : Permutation l l' -> In (a, b) (pairs l) \/ In (b, a) (pairs l) -> In (a, b) (pairs l') \/ In (b, a) (pairs l').
Proof.
  induction 1 as [|x c d P IH|x y c|c d e _ IH1 _ IH2]; cbn [pairs map app In]; rewrite ?in_app_iff, ?in_map_pair.
  - tauto.
  - pose proof (fun z => Permutation_in z P) as Q. pose proof (Q a). pose proof (Q b). tauto.
  - cbn [In]. rewrite ?in_app_iff, ?in_map_pair. assert (E : forall p q r s : T, (p, q) = (r, s) <-> p = r /\ q = s) by (intros; split; [intros K; now injection K | intros [-> ->]; reflexivity]). rewrite !E. intuition congruence.
  - intros H. apply IH2, IH1, H.
Qed.
End P.
Lemma overlaps2_axis {A : arith} (b c : BoundingBox2 (num A)) d : bb2_overlaps b c = true -> Le (coord2 (bb2_min c) d) (coord2 (bb2_max b) d).
Proof. unfold bb2_overlaps. rewrite !andb_true_iff. intros H. destruct d; tauto. Qed.
Lemma scan2_ok {A : arith} d (b : BoundingBox2 (num A)) l : StronglySorted (fun a c => Le (coord2 (bb2_min a) d) (coord2 (bb2_min c) d)) l -> scan2 d b l = filter (fun bc => bb2_overlaps (fst bc) (snd bc)) (map (pair b) l).
Proof.
  pose proof (num_OrdLaws A) as L. induction l as [|c r IH]; intros H; [reflexivity|]. apply StronglySorted_inv in H. destruct H as [H1 H2]. cbn [scan2 map filter fst snd]. destruct (sle (coord2 (bb2_min c) d) (coord2 (bb2_max b) d)) eqn:E.
  - rewrite (IH H1). now destruct (bb2_overlaps b c).
  - destruct (bb2_overlaps b c) eqn:K; [pose proof (overlaps2_axis b c d K) as Q; unfold Le in Q; rewrite Q in E; discriminate|].
    assert (G : filter (fun bc => bb2_overlaps (fst bc) (snd bc)) (map (pair b) r) = []); [|now rewrite G].
    clear IH H1 K. induction r as [|e r IH]; [reflexivity|]. inversion_clear H2 as [|? ? Q1 Q2]. cbn [map filter fst snd]. rewrite (IH Q2). destruct (bb2_overlaps b e) eqn:K; [|reflexivity]. pose proof (Le_trans L _ _ _ Q1 (overlaps2_axis b e d K)) as Q. unfold Le in Q. rewrite Q in E. discriminate.
Qed.
Lemma overlaps3_axis {A : arith} (b c : BoundingBox3 (num A)) d : bb3_overlaps b c = true -> Le (coord3 (bb3_min c) d) (coord3 (bb3_max b) d).
Proof. unfold bb3_overlaps. rewrite !andb_true_iff. intros H. destruct d; tauto. Qed.
Lemma scan3_ok {A : arith} d (b : BoundingBox3 (num A)) l : StronglySorted (fun a c => Le (coord3 (bb3_min a) d) (coord3 (bb3_min c) d)) l -> scan3 d b l = filter (fun bc => bb3_overlaps (fst bc) (snd bc)) (map (pair b) l).
Proof.
  pose proof (num_OrdLaws A) as L. induction l as [|c r IH]; intros H; [reflexivity|]. apply StronglySorted_inv in H. destruct H as [H1 H2]. cbn [scan3 map filter fst snd]. destruct (sle (coord3 (bb3_min c) d) (coord3 (bb3_max b) d)) eqn:E.
  - rewrite (IH H1). now destruct (bb3_overlaps b c).
  - destruct (bb3_overlaps b c) eqn:K; [pose proof (overlaps3_axis b c d K) as Q; unfold Le in Q; rewrite Q in E; discriminate|].
    assert (G : filter (fun bc => bb3_overlaps (fst bc) (snd bc)) (map (pair b) r) = []); [|now rewrite G].
    clear IH H1 K. induction r as [|e r IH]; [reflexivity|]. inversion_clear H2 as [|? ? Q1 Q2]. cbn [map filter fst snd]. rewrite (IH Q2). destruct (bb3_overlaps b e) eqn:K; [|reflexivity]. pose proof (Le_trans L _ _ _ Q1 (overlaps3_axis b e d K)) as Q. unfold Le in Q. rewrite Q in E. discriminate.
Qed.
Lemma C113_sweep_2d_pf : forall (A : arith) (d : Dimension2) (l : list (BoundingBox2 (num A))), StronglySorted (fun a c => Le (coord2 (bb2_min a) d) (coord2 (bb2_min c) d)) l ->
  sweep2 d l = filter (fun bc => bb2_overlaps (fst bc) (snd bc)) (pairs l).
Proof.
  intros A d l. induction l as [|b r IH]; intros H; [reflexivity|]. apply StronglySorted_inv in H. destruct H as [H1 H2]. cbn [sweep2 pairs]. now rewrite filter_app, scan2_ok, (IH H1).
Qed.
Lemma C113_sweep_3d_pf : forall (A : arith) (d : Dimension3) (l : list (BoundingBox3 (num A))), StronglySorted (fun a c => Le (coord3 (bb3_min a) d) (coord3 (bb3_min c) d)) l ->
  sweep3 d l = filter (fun bc => bb3_overlaps (fst bc) (snd bc)) (pairs l).
Proof.
  intros A d l. induction l as [|b r IH]; intros H; [reflexivity|]. apply StronglySorted_inv in H. destruct H as [H1 H2]. cbn [sweep3 pairs]. now rewrite filter_app, scan3_ok, (IH H1).
Qed.
Lemma C113_sort_and_sweep_2d_pf : forall (A : arith) (d : Dimension2) (l : list (BoundingBox2 (num A))), (forall b, In b l -> NoNaN (coord2 (bb2_min b) d)) ->
  Permutation (isort2 d l) l /\
  length (sweep2 d (isort2 d l)) = length (filter (fun bc => bb2_overlaps (fst bc) (snd bc)) (pairs l)) /\
  forall a b, (In (a, b) (sweep2 d (isort2 d l)) \/ In (b, a) (sweep2 d (isort2 d l))) <-> bb2_overlaps a b = true /\ (In (a, b) (pairs l) \/ In (b, a) (pairs l)).
Proof.
  intros A d l N. pose proof (num_OrdLaws A) as L. set (R := fun a c : BoundingBox2 (num A) => Le (coord2 (bb2_min a) d) (coord2 (bb2_min c) d)).
  assert (IP : forall (b : BoundingBox2 (num A)) (m : list (BoundingBox2 (num A))), Permutation (ins2 d b m) (b :: m)).
  { intros b m. induction m as [|c r IH]; cbn [ins2]; [apply Permutation_refl|]. destruct (sle _ _); [apply Permutation_refl|]. rewrite IH. apply perm_swap. }
  assert (SP : Permutation (isort2 d l) l).
  { clear N. induction l as [|b r IH]; [constructor|]. cbn [isort2 fold_right]. change (fold_right (ins2 d) [] r) with (isort2 d r). rewrite IP. now constructor. }
  assert (SS : StronglySorted R (isort2 d l)).
  { assert (IS : forall (b : BoundingBox2 (num A)) (m : list (BoundingBox2 (num A))), NoNaN (coord2 (bb2_min b) d) -> (forall c, In c m -> NoNaN (coord2 (bb2_min c) d)) -> StronglySorted R m -> StronglySorted R (ins2 d b m)).
    { intros b m Nb. induction m as [|c r IH]; intros Nm H; [repeat constructor|]. cbn [ins2]. apply StronglySorted_inv in H. destruct H as [H1 H2]. destruct (sle _ _) eqn:E.
      - constructor; [now constructor|]. constructor; [exact E|]. eapply Forall_impl; [|exact H2]. intros e K. exact (Le_trans L _ _ _ E K).
      - constructor; [apply IH; [intros e Ie; apply Nm; now right | assumption]|]. apply (Permutation_Forall (Permutation_sym (IP b r))). constructor; [|assumption].
        destruct (Le_total L (coord2 (bb2_min b) d) (coord2 (bb2_min c) d) Nb (Nm c (or_introl eq_refl))) as [Q|Q]; [unfold Le in Q; rewrite Q in E; discriminate | exact Q]. }
    clear SP. induction l as [|b r IH]; [constructor|]. cbn [isort2 fold_right]. change (fold_right (ins2 d) [] r) with (isort2 d r). apply IS; [apply N; now left | | apply IH; intros c Ic; apply N; now right].
    intros c Ic. apply N. right. assert (SP : Permutation (isort2 d r) r). { clear - IP. induction r as [|b r IH]; [constructor|]. cbn [isort2 fold_right]. change (fold_right (ins2 d) [] r) with (isort2 d r). rewrite IP. now constructor. } exact (Permutation_in _ SP Ic). }
  split; [exact SP|]. rewrite (C113_sweep_2d_pf A d _ SS). split.
  - apply pairs_count; [intros x y; apply bb2_overlaps_sym | exact SP].
  - intros a b. rewrite !filter_In. cbn [fst snd]. rewrite (bb2_overlaps_sym b a). split.
    + intros [[H1 H2]|[H1 H2]]; (split; [exact H2|]); apply (pairs_in _ _ a b SP); [now left | now right].
    + intros [H1 H2]. apply (pairs_in _ _ a b (Permutation_sym SP)) in H2. tauto.
Qed.
Lemma C113_sort_and_sweep_3d_pf : forall (A : arith) (d : Dimension3) (l : list (BoundingBox3 (num A))), (forall b, In b l -> NoNaN (coord3 (bb3_min b) d)) ->
  Permutation (isort3 d l) l /\
  length (sweep3 d (isort3 d l)) = length (filter (fun bc => bb3_overlaps (fst bc) (snd bc)) (pairs l)) /\
  forall a b, (In (a, b) (sweep3 d (isort3 d l)) \/ In (b, a) (sweep3 d (isort3 d l))) <-> bb3_overlaps a b = true /\ (In (a, b) (pairs l) \/ In (b, a) (pairs l)).
Proof.
  intros A d l N. pose proof (num_OrdLaws A) as L. set (R := fun a c : BoundingBox3 (num A) => Le (coord3 (bb3_min a) d) (coord3 (bb3_min c) d)).
  assert (IP : forall (b : BoundingBox3 (num A)) (m : list (BoundingBox3 (num A))), Permutation (ins3 d b m) (b :: m)).
  { intros b m. induction m as [|c r IH]; cbn [ins3]; [apply Permutation_refl|]. destruct (sle _ _); [apply Permutation_refl|]. rewrite IH. apply perm_swap. }
  assert (SP : Permutation (isort3 d l) l).
  { clear N. induction l as [|b r IH]; [constructor|]. cbn [isort3 fold_right]. change (fold_right (ins3 d) [] r) with (isort3 d r). rewrite IP. now constructor. }
  assert (SS : StronglySorted R (isort3 d l)).
  { assert (IS : forall (b : BoundingBox3 (num A)) (m : list (BoundingBox3 (num A))), NoNaN (coord3 (bb3_min b) d) -> (forall c, In c m -> NoNaN (coord3 (bb3_min c) d)) -> StronglySorted R m -> StronglySorted R (ins3 d b m)).
    { intros b m Nb. induction m as [|c r IH]; intros Nm H; [repeat constructor|]. cbn [ins3]. apply StronglySorted_inv in H. destruct H as [H1 H2]. destruct (sle _ _) eqn:E.
      - constructor; [now constructor|]. constructor; [exact E|]. eapply Forall_impl; [|exact H2]. intros e K. exact (Le_trans L _ _ _ E K).
      - constructor; [apply IH; [intros e Ie; apply Nm; now right | assumption]|]. apply (Permutation_Forall (Permutation_sym (IP b r))). constructor; [|assumption].
        destruct (Le_total L (coord3 (bb3_min b) d) (coord3 (bb3_min c) d) Nb (Nm c (or_introl eq_refl))) as [Q|Q]; [unfold Le in Q; rewrite Q in E; discriminate | exact Q]. }
    clear SP. induction l as [|b r IH]; [constructor|]. cbn [isort3 fold_right]. change (fold_right (ins3 d) [] r) with (isort3 d r). apply IS; [apply N; now left | | apply IH; intros c Ic; apply N; now right].
    intros c Ic. apply N. right. assert (SP : Permutation (isort3 d r) r). { clear - IP. induction r as [|b r IH]; [constructor|]. cbn [isort3 fold_right]. change (fold_right (ins3 d) [] r) with (isort3 d r). rewrite IP. now constructor. } exact (Permutation_in _ SP Ic). }
  split; [exact SP|]. rewrite (C113_sweep_3d_pf A d _ SS). split.
  - apply pairs_count; [intros x y; apply bb3_overlaps_sym | exact SP].
  - intros a b. rewrite !filter_In. cbn [fst snd]. rewrite (bb3_overlaps_sym b a). split.
    + intros [[H1 H2]|[H1 H2]]; (split; [exact H2|]); apply (pairs_in _ _ a b SP); [now left | now right].
    + intros [H1 H2]. apply (pairs_in _ _ a b (Permutation_sym SP)) in H2. tauto.
Qed.
