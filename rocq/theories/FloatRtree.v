(** Proofs: a tree of boxes under any history of insertions and removals (C115). *)
From Coq Require Import Bool NArith Arith List Lia Permutation.
From Verif Require Import Scalar Types Vector2 Vector3 Point2 Point3 Ray BoundingBox2 BoundingBox3 Float
  XReal OrdLaws Arith SpecOrder SpecFloat SpecRtree OrderProofs OrderBox FloatLaws.
Import ListNotations.
Lemma filter_perm' {U} (g : U -> bool) a b : Permutation a b -> Permutation (filter g a) (filter g b).
Proof.
  induction 1 as [|x a b _ IH|x y a|a b c _ IH1 _ IH2]; cbn.
  - constructor.
  - destruct (g x); [now constructor | assumption].
  - destruct (g x), (g y); try apply Permutation_refl. constructor.
  - now transitivity (filter g b).
Qed.
Section R2.
Context {A : arith}.
Notation T := (rtree2 (num A)).
Notation B := (BoundingBox2 (num A)).
Implicit Types (t l r : T) (b c d : B) (i : nat).
Definition Covers2 (c : B) (m : list (B * nat)) : Prop := forall x, In x m -> Incl2 (fst x) c.
Fixpoint Inv2 (t : T) : Prop := match t with
  | RNil2 => True
  | RLeaf2 b _ => Ordered2 b
  | RNode2 c l r => l <> RNil2 /\ r <> RNil2 /\ Ordered2 c /\ Covers2 c (rleaves2 l ++ rleaves2 r) /\ (forall d : B, Covers2 d (rleaves2 l ++ rleaves2 r) -> Incl2 c d) /\ Inv2 l /\ Inv2 r end.
Lemma Covers2_app c m n : Covers2 c (m ++ n) <-> Covers2 c m /\ Covers2 c n.
Proof. unfold Covers2. split; [intros H; split; intros x X; apply H, in_app_iff; [now left | now right] | intros [H1 H2] x X; apply in_app_iff in X; destruct X; [now apply H1 | now apply H2]]. Qed.
Lemma Covers2_perm c m n : Permutation m n -> Covers2 c m -> Covers2 c n.
Proof. intros P H x I. apply H. exact (Permutation_in _ (Permutation_sym P) I). Qed.
Lemma Covers2_incl c d m : Incl2 c d -> Covers2 c m -> Covers2 d m.
Proof. intros I H x X p P. apply I. exact (H x X p P). Qed.
Lemma rleaves2_nonempty t : Inv2 t -> t <> RNil2 -> rleaves2 t <> [].
Proof. induction t as [|b i|c l IHl r IHr]; cbn; try easy. intros (N & _ & _ & _ & _ & I & _) _ E. apply app_eq_nil in E. now apply IHl. Qed.
Lemma rbox2_ok t : Inv2 t -> t <> RNil2 -> Ordered2 (rbox2 t) /\ Covers2 (rbox2 t) (rleaves2 t) /\ forall d : B, Covers2 d (rleaves2 t) -> Incl2 (rbox2 t) d.
Proof.
  destruct t as [|b i|c l r]; cbn; [easy | |]; intros I _.
  - split; [exact I|]. split; [intros x [<-|[]] p P; exact P | intros d H; apply (H (b, i)); now left].
  - tauto.
Qed.
Lemma rnode2_ok c l r : l <> RNil2 -> r <> RNil2 -> Inv2 l -> Inv2 r -> Ordered2 c -> Incl2 (rbox2 l) c -> Incl2 (rbox2 r) c -> (forall d : B, Covers2 d (rleaves2 l) -> Covers2 d (rleaves2 r) -> Incl2 c d) -> Inv2 (RNode2 c l r).
Proof.
  intros Nl Nr Il Ir O Cl Cr H. cbn. repeat (split; [assumption|]). split; [|split; [|now split]].
  - apply Covers2_app. split; eapply Covers2_incl; [exact Cl | apply rbox2_ok; assumption | exact Cr | apply rbox2_ok; assumption].
  - intros d K. apply Covers2_app in K. now apply H.
Qed.
Lemma rinsert2_nil ch b i t : rinsert2 ch b i t <> RNil2.
Proof. destruct t; cbn; try easy. now destruct (ch _ _ _). Qed.
Lemma rinsert2_leaves ch b i t : Permutation (rleaves2 (rinsert2 ch b i t)) ((b, i) :: rleaves2 t).
Proof.
  induction t as [|c j|c l IHl r IHr]; cbn; [apply Permutation_refl | apply perm_swap|]. destruct (ch _ _ _); cbn.
  - rewrite IHl. apply Permutation_refl.
  - rewrite IHr. symmetry. apply Permutation_middle.
Qed.
Lemma rinsert2_Inv ch b i t : Ordered2 b -> Inv2 t -> Inv2 (rinsert2 ch b i t).
Proof.
  pose proof (num_OrdLaws A) as L. intros O. induction t as [|c j|c l IHl r IHr]; cbn [rinsert2]; [intros _; exact O | |].
  - intros I. cbn in I. apply rnode2_ok; try easy; cbn [rbox2 rleaves2]; [now apply bb2_union_ordered | now apply (bb2_union_l L) | now apply (bb2_union_r L)|].
    intros d H1 H2. apply (bb2_union_least L); try assumption; [apply (H1 (c, j)) | apply (H2 (b, i))]; now left.
  - intros I. destruct (rbox2_ok _ I ltac:(discriminate)) as (_ & V & Lst). cbn in V, Lst. destruct I as (Nl & Nr & Oc & _ & _ & Il & Ir). apply Covers2_app in V. destruct V as [Vl Vr]. pose proof (bb2_union_l L c b Oc O) as U1. pose proof (bb2_union_r L c b Oc O) as U2.
    assert (OU : Ordered2 (bb2_union c b)) by now apply bb2_union_ordered. specialize (IHl Il). specialize (IHr Ir).
    destruct (ch _ _ _).
    + apply rnode2_ok; try assumption; [apply rinsert2_nil | | |].
      * apply (rbox2_ok _ IHl (rinsert2_nil ch b i l)). apply (Covers2_perm _ _ _ (Permutation_sym (rinsert2_leaves ch b i l))). intros x [<-|X]; [exact U2 | exact (Covers2_incl _ _ _ U1 Vl x X)].
      * apply (rbox2_ok _ Ir Nr). exact (Covers2_incl _ _ _ U1 Vr).
      * intros d H1 H2. apply (Covers2_perm _ _ _ (rinsert2_leaves ch b i l)) in H1. apply (bb2_union_least L); try assumption; [apply Lst, Covers2_app; split; [intros x X; apply H1; now right | assumption] | apply (H1 (b, i)); now left].
    + apply rnode2_ok; try assumption; [apply rinsert2_nil | | |].
      * apply (rbox2_ok _ Il Nl). exact (Covers2_incl _ _ _ U1 Vl).
      * apply (rbox2_ok _ IHr (rinsert2_nil ch b i r)). apply (Covers2_perm _ _ _ (Permutation_sym (rinsert2_leaves ch b i r))). intros x [<-|X]; [exact U2 | exact (Covers2_incl _ _ _ U1 Vr x X)].
      * intros d H1 H2. apply (Covers2_perm _ _ _ (rinsert2_leaves ch b i r)) in H2. apply (bb2_union_least L); try assumption; [apply Lst, Covers2_app; split; [assumption | intros x X; apply H2; now right] | apply (H2 (b, i)); now left].
Qed.
Lemma rremove2_ok i t : Inv2 t -> Inv2 (rremove2 i t) /\ rleaves2 (rremove2 i t) = filter (fun x => negb (Nat.eqb i (snd x))) (rleaves2 t).
Proof.
  pose proof (num_OrdLaws A) as L. induction t as [|c j|c l IHl r IHr]; [easy | |].
  - cbn. destruct (Nat.eqb i j); cbn; intros I; now split.
  - intros (_ & _ & _ & _ & _ & Il & Ir). specialize (IHl Il). specialize (IHr Ir). destruct IHl as [Jl El], IHr as [Jr Er]. cbn [rleaves2]. rewrite filter_app, <- El, <- Er.
    assert (K : forall x y : T, Inv2 x -> Inv2 y -> x <> RNil2 -> y <> RNil2 -> Inv2 (RNode2 (bb2_union (rbox2 x) (rbox2 y)) x y)).
    { intros x y Ix Iy Nx Ny. destruct (rbox2_ok x Ix Nx) as (Ox & _ & Lx), (rbox2_ok y Iy Ny) as (Oy & _ & Ly). apply rnode2_ok; try assumption; [now apply bb2_union_ordered | now apply (bb2_union_l L) | now apply (bb2_union_r L)|].
      intros d H1 H2. apply (bb2_union_least L); auto. }
    cbn [rremove2]. destruct (rremove2 i l) as [|? ?|? ? ?]; [now split | |]; (destruct (rremove2 i r) as [|? ?|? ? ?]; [cbn [rleaves2]; rewrite app_nil_r; now split | |]); (split; [apply K; easy | reflexivity]).
Qed.
Lemma rrun2_ok (h : list (rop2 (num A))) : HOrdered2 h -> Inv2 (rrun2 h) /\ Permutation (rleaves2 (rrun2 h)) (stored2 h).
Proof.
  unfold rrun2, stored2. assert (G : forall (t : T) m, Inv2 t -> Permutation (rleaves2 t) m -> HOrdered2 h -> Inv2 (fold_left rstep2 h t) /\ Permutation (rleaves2 (fold_left rstep2 h t)) (fold_left sstep2 h m)); [|intros H; apply G; [exact I | apply Permutation_refl | exact H]].
  induction h as [|o h IH]; intros t m It P H; [now split|]. cbn [fold_left]. apply IH.
  - destruct o as [ch b i|i]; cbn [rstep2]; [apply rinsert2_Inv; [apply (H ch b i); now left | assumption] | now apply rremove2_ok].
  - destruct o as [ch b i|i]; cbn [rstep2 sstep2]; [rewrite rinsert2_leaves; now constructor | rewrite (proj2 (rremove2_ok i t It)); now apply filter_perm'].
  - intros ch b i X. apply (H ch b i). now right.
Qed.
Lemma rquery2_ok (f : B -> bool) t : (forall a b : B, Ordered2 a -> Ordered2 b -> Incl2 a b -> f a = true -> f b = true) -> Inv2 t -> rquery2 f t = map snd (filter (fun x => f (fst x)) (rleaves2 t)).
Proof.
  intros M. assert (Lo : forall (t : T), Inv2 t -> forall x, In x (rleaves2 t) -> Ordered2 (fst x)).
  { intros u. induction u as [|c j|c l IHl r IHr]; cbn; [easy | intros O x [<-|[]]; exact O|]. intros (_ & _ & _ & _ & _ & Il & Ir) x X. apply in_app_iff in X. destruct X; auto. }
  induction t as [|c j|c l IHl r IHr]; cbn [rquery2 rleaves2]; intros I; [reflexivity | cbn; now destruct (f c)|]. pose proof I as (_ & _ & Oc & V & _ & Il & Ir). destruct (f c) eqn:E.
  - now rewrite (IHl Il), (IHr Ir), filter_app, map_app.
  - assert (Z : forall m : list (B * nat), (forall x, In x m -> f (fst x) = false) -> filter (fun x => f (fst x)) m = []) by (induction m as [|x m IH]; intros H; [reflexivity|]; cbn; rewrite (H x (or_introl eq_refl)); apply IH; intros y Y; apply H; now right).
    rewrite Z; [reflexivity|]. intros x X. destruct (f (fst x)) eqn:G; [|reflexivity]. assert (W : f c = true) by (apply (M (fst x) c); [exact (Lo _ I x X) | exact Oc | exact (V x X) | exact G]); congruence.
Qed.
Lemma overlaps2_mono (a b q : B) : PLe2 (bb2_min b) (bb2_min a) -> PLe2 (bb2_max a) (bb2_max b) -> bb2_overlaps a q = true -> bb2_overlaps b q = true.
Proof.
  pose proof (num_OrdLaws A) as L. intros I1 I2 K. unfold bb2_overlaps in *. rewrite !andb_true_iff in *. fold_Le. oexpand. osplit; match goal with K : Le ?u ?v, H : Le ?v ?w |- Le ?u ?w => exact (Le_trans L _ _ _ K H) end.
Qed.
End R2.
Section R3.
Context {A : arith}.
Notation T := (rtree3 (num A)).
Notation B := (BoundingBox3 (num A)).
Implicit Types (t l r : T) (b c d : B) (i : nat).
Definition Covers3 (c : B) (m : list (B * nat)) : Prop := forall x, In x m -> Incl3 (fst x) c.
Fixpoint Inv3 (t : T) : Prop := match t with
  | RNil3 => True
  | RLeaf3 b _ => Ordered3 b
  | RNode3 c l r => l <> RNil3 /\ r <> RNil3 /\ Ordered3 c /\ Covers3 c (rleaves3 l ++ rleaves3 r) /\ (forall d : B, Covers3 d (rleaves3 l ++ rleaves3 r) -> Incl3 c d) /\ Inv3 l /\ Inv3 r end.
Lemma Covers3_app c m n : Covers3 c (m ++ n) <-> Covers3 c m /\ Covers3 c n.
Proof. unfold Covers3. split; [intros H; split; intros x X; apply H, in_app_iff; [now left | now right] | intros [H1 H2] x X; apply in_app_iff in X; destruct X; [now apply H1 | now apply H2]]. Qed.
Lemma Covers3_perm c m n : Permutation m n -> Covers3 c m -> Covers3 c n.
Proof. intros P H x I. apply H. exact (Permutation_in _ (Permutation_sym P) I). Qed.
Lemma Covers3_incl c d m : Incl3 c d -> Covers3 c m -> Covers3 d m.
Proof. intros I H x X p P. apply I. exact (H x X p P). Qed.
Lemma rleaves3_nonempty t : Inv3 t -> t <> RNil3 -> rleaves3 t <> [].
Proof. induction t as [|b i|c l IHl r IHr]; cbn; try easy. intros (N & _ & _ & _ & _ & I & _) _ E. apply app_eq_nil in E. now apply IHl. Qed.
Lemma rbox3_ok t : Inv3 t -> t <> RNil3 -> Ordered3 (rbox3 t) /\ Covers3 (rbox3 t) (rleaves3 t) /\ forall d : B, Covers3 d (rleaves3 t) -> Incl3 (rbox3 t) d.
Proof.
  destruct t as [|b i|c l r]; cbn; [easy | |]; intros I _.
  - split; [exact I|]. split; [intros x [<-|[]] p P; exact P | intros d H; apply (H (b, i)); now left].
  - tauto.
Qed.
Lemma rnode3_ok c l r : l <> RNil3 -> r <> RNil3 -> Inv3 l -> Inv3 r -> Ordered3 c -> Incl3 (rbox3 l) c -> Incl3 (rbox3 r) c -> (forall d : B, Covers3 d (rleaves3 l) -> Covers3 d (rleaves3 r) -> Incl3 c d) -> Inv3 (RNode3 c l r).
Proof.
  intros Nl Nr Il Ir O Cl Cr H. cbn. repeat (split; [assumption|]). split; [|split; [|now split]].
  - apply Covers3_app. split; eapply Covers3_incl; [exact Cl | apply rbox3_ok; assumption | exact Cr | apply rbox3_ok; assumption].
  - intros d K. apply Covers3_app in K. now apply H.
Qed.
Lemma rinsert3_nil ch b i t : rinsert3 ch b i t <> RNil3.
Proof. destruct t; cbn; try easy. now destruct (ch _ _ _). Qed.
Lemma rinsert3_leaves ch b i t : Permutation (rleaves3 (rinsert3 ch b i t)) ((b, i) :: rleaves3 t).
Proof.
  induction t as [|c j|c l IHl r IHr]; cbn; [apply Permutation_refl | apply perm_swap|]. destruct (ch _ _ _); cbn.
  - rewrite IHl. apply Permutation_refl.
  - rewrite IHr. symmetry. apply Permutation_middle.
Qed.
Lemma rinsert3_Inv ch b i t : Ordered3 b -> Inv3 t -> Inv3 (rinsert3 ch b i t).
Proof.
  pose proof (num_OrdLaws A) as L. intros O. induction t as [|c j|c l IHl r IHr]; cbn [rinsert3]; [intros _; exact O | |].
  - intros I. cbn in I. apply rnode3_ok; try easy; cbn [rbox3 rleaves3]; [now apply bb3_union_ordered | now apply (bb3_union_l L) | now apply (bb3_union_r L)|].
    intros d H1 H2. apply (bb3_union_least L); try assumption; [apply (H1 (c, j)) | apply (H2 (b, i))]; now left.
  - intros I. destruct (rbox3_ok _ I ltac:(discriminate)) as (_ & V & Lst). cbn in V, Lst. destruct I as (Nl & Nr & Oc & _ & _ & Il & Ir). apply Covers3_app in V. destruct V as [Vl Vr]. pose proof (bb3_union_l L c b Oc O) as U1. pose proof (bb3_union_r L c b Oc O) as U2.
    assert (OU : Ordered3 (bb3_union c b)) by now apply bb3_union_ordered. specialize (IHl Il). specialize (IHr Ir).
    destruct (ch _ _ _).
    + apply rnode3_ok; try assumption; [apply rinsert3_nil | | |].
      * apply (rbox3_ok _ IHl (rinsert3_nil ch b i l)). apply (Covers3_perm _ _ _ (Permutation_sym (rinsert3_leaves ch b i l))). intros x [<-|X]; [exact U2 | exact (Covers3_incl _ _ _ U1 Vl x X)].
      * apply (rbox3_ok _ Ir Nr). exact (Covers3_incl _ _ _ U1 Vr).
      * intros d H1 H2. apply (Covers3_perm _ _ _ (rinsert3_leaves ch b i l)) in H1. apply (bb3_union_least L); try assumption; [apply Lst, Covers3_app; split; [intros x X; apply H1; now right | assumption] | apply (H1 (b, i)); now left].
    + apply rnode3_ok; try assumption; [apply rinsert3_nil | | |].
      * apply (rbox3_ok _ Il Nl). exact (Covers3_incl _ _ _ U1 Vl).
      * apply (rbox3_ok _ IHr (rinsert3_nil ch b i r)). apply (Covers3_perm _ _ _ (Permutation_sym (rinsert3_leaves ch b i r))). intros x [<-|X]; [exact U2 | exact (Covers3_incl _ _ _ U1 Vr x X)].
      * intros d H1 H2. apply (Covers3_perm _ _ _ (rinsert3_leaves ch b i r)) in H2. apply (bb3_union_least L); try assumption; [apply Lst, Covers3_app; split; [assumption | intros x X; apply H2; now right] | apply (H2 (b, i)); now left].
Qed.
Lemma rremove3_ok i t : Inv3 t -> Inv3 (rremove3 i t) /\ rleaves3 (rremove3 i t) = filter (fun x => negb (Nat.eqb i (snd x))) (rleaves3 t).
Proof.
  pose proof (num_OrdLaws A) as L. induction t as [|c j|c l IHl r IHr]; [easy | |].
  - cbn. destruct (Nat.eqb i j); cbn; intros I; now split.
  - intros (_ & _ & _ & _ & _ & Il & Ir). specialize (IHl Il). specialize (IHr Ir). destruct IHl as [Jl El], IHr as [Jr Er]. cbn [rleaves3]. rewrite filter_app, <- El, <- Er.
    assert (K : forall x y : T, Inv3 x -> Inv3 y -> x <> RNil3 -> y <> RNil3 -> Inv3 (RNode3 (bb3_union (rbox3 x) (rbox3 y)) x y)).
    { intros x y Ix Iy Nx Ny. destruct (rbox3_ok x Ix Nx) as (Ox & _ & Lx), (rbox3_ok y Iy Ny) as (Oy & _ & Ly). apply rnode3_ok; try assumption; [now apply bb3_union_ordered | now apply (bb3_union_l L) | now apply (bb3_union_r L)|].
      intros d H1 H2. apply (bb3_union_least L); auto. }
    cbn [rremove3]. destruct (rremove3 i l) as [|? ?|? ? ?]; [now split | |]; (destruct (rremove3 i r) as [|? ?|? ? ?]; [cbn [rleaves3]; rewrite app_nil_r; now split | |]); (split; [apply K; easy | reflexivity]).
Qed.
Lemma rrun3_ok (h : list (rop3 (num A))) : HOrdered3 h -> Inv3 (rrun3 h) /\ Permutation (rleaves3 (rrun3 h)) (stored3 h).
Proof.
  unfold rrun3, stored3. assert (G : forall (t : T) m, Inv3 t -> Permutation (rleaves3 t) m -> HOrdered3 h -> Inv3 (fold_left rstep3 h t) /\ Permutation (rleaves3 (fold_left rstep3 h t)) (fold_left sstep3 h m)); [|intros H; apply G; [exact I | apply Permutation_refl | exact H]].
  induction h as [|o h IH]; intros t m It P H; [now split|]. cbn [fold_left]. apply IH.
  - destruct o as [ch b i|i]; cbn [rstep3]; [apply rinsert3_Inv; [apply (H ch b i); now left | assumption] | now apply rremove3_ok].
  - destruct o as [ch b i|i]; cbn [rstep3 sstep3]; [rewrite rinsert3_leaves; now constructor | rewrite (proj2 (rremove3_ok i t It)); now apply filter_perm'].
  - intros ch b i X. apply (H ch b i). now right.
Qed.
Lemma rquery3_ok (f : B -> bool) t : (forall a b : B, Ordered3 a -> Ordered3 b -> Incl3 a b -> f a = true -> f b = true) -> Inv3 t -> rquery3 f t = map snd (filter (fun x => f (fst x)) (rleaves3 t)).
Proof.
  intros M. assert (Lo : forall (t : T), Inv3 t -> forall x, In x (rleaves3 t) -> Ordered3 (fst x)).
  { intros u. induction u as [|c j|c l IHl r IHr]; cbn; [easy | intros O x [<-|[]]; exact O|]. intros (_ & _ & _ & _ & _ & Il & Ir) x X. apply in_app_iff in X. destruct X; auto. }
  induction t as [|c j|c l IHl r IHr]; cbn [rquery3 rleaves3]; intros I; [reflexivity | cbn; now destruct (f c)|]. pose proof I as (_ & _ & Oc & V & _ & Il & Ir). destruct (f c) eqn:E.
  - now rewrite (IHl Il), (IHr Ir), filter_app, map_app.
  - assert (Z : forall m : list (B * nat), (forall x, In x m -> f (fst x) = false) -> filter (fun x => f (fst x)) m = []) by (induction m as [|x m IH]; intros H; [reflexivity|]; cbn; rewrite (H x (or_introl eq_refl)); apply IH; intros y Y; apply H; now right).
    rewrite Z; [reflexivity|]. intros x X. destruct (f (fst x)) eqn:G; [|reflexivity]. assert (W : f c = true) by (apply (M (fst x) c); [exact (Lo _ I x X) | exact Oc | exact (V x X) | exact G]); congruence.
Qed.
Lemma overlaps3_mono (a b q : B) : PLe3 (bb3_min b) (bb3_min a) -> PLe3 (bb3_max a) (bb3_max b) -> bb3_overlaps a q = true -> bb3_overlaps b q = true.
Proof.
  pose proof (num_OrdLaws A) as L. intros I1 I2 K. unfold bb3_overlaps in *. rewrite !andb_true_iff in *. fold_Le. oexpand. osplit; match goal with K : Le ?u ?v, H : Le ?v ?w |- Le ?u ?w => exact (Le_trans L _ _ _ K H) end.
Qed.
End R3.
Lemma C115_contents_2d_pf : forall (A : arith) (h : list (rop2 (num A))), HOrdered2 h ->
  Permutation (rleaves2 (rrun2 h)) (stored2 h) /\
  (stored2 h <> [] -> Ordered2 (rbox2 (rrun2 h)) /\ (forall b i, In (b, i) (stored2 h) -> Incl2 b (rbox2 (rrun2 h))) /\
    forall c : BoundingBox2 (num A), (forall b i, In (b, i) (stored2 h) -> Incl2 b c) -> Incl2 (rbox2 (rrun2 h)) c).
Proof.
  intros A h H. destruct (rrun2_ok h H) as [I P]. split; [exact P|]. intros N.
  assert (Nt : rrun2 h <> RNil2) by (intros E; rewrite E in P; apply N, Permutation_nil, P). destruct (rbox2_ok _ I Nt) as (O & V & Lst). split; [exact O|]. split.
  - intros b i X. exact (V (b, i) (Permutation_in _ (Permutation_sym P) X)).
  - intros c K. apply Lst. intros [b i] X. exact (K b i (Permutation_in _ P X)).
Qed.
Lemma C115_contents_3d_pf : forall (A : arith) (h : list (rop3 (num A))), HOrdered3 h ->
  Permutation (rleaves3 (rrun3 h)) (stored3 h) /\
  (stored3 h <> [] -> Ordered3 (rbox3 (rrun3 h)) /\ (forall b i, In (b, i) (stored3 h) -> Incl3 b (rbox3 (rrun3 h))) /\
    forall c : BoundingBox3 (num A), (forall b i, In (b, i) (stored3 h) -> Incl3 b c) -> Incl3 (rbox3 (rrun3 h)) c).
Proof.
  intros A h H. destruct (rrun3_ok h H) as [I P]. split; [exact P|]. intros N.
  assert (Nt : rrun3 h <> RNil3) by (intros E; rewrite E in P; apply N, Permutation_nil, P). destruct (rbox3_ok _ I Nt) as (O & V & Lst). split; [exact O|]. split.
  - intros b i X. exact (V (b, i) (Permutation_in _ (Permutation_sym P) X)).
  - intros c K. apply Lst. intros [b i] X. exact (K b i (Permutation_in _ P X)).
Qed.
Lemma C115_search_2d_pf : forall (A : arith) (h : list (rop2 (num A))) (f : BoundingBox2 (num A) -> bool), HOrdered2 h -> (forall a b, Ordered2 a -> Ordered2 b -> Incl2 a b -> f a = true -> f b = true) ->
  Permutation (rquery2 f (rrun2 h)) (map snd (filter (fun x => f (fst x)) (stored2 h))).
Proof.
  intros A h f H M. destruct (rrun2_ok h H) as [I P]. rewrite (rquery2_ok f _ M I). now apply Permutation_map, filter_perm'.
Qed.
Lemma C115_search_3d_pf : forall (A : arith) (h : list (rop3 (num A))) (f : BoundingBox3 (num A) -> bool), HOrdered3 h -> (forall a b, Ordered3 a -> Ordered3 b -> Incl3 a b -> f a = true -> f b = true) ->
  Permutation (rquery3 f (rrun3 h)) (map snd (filter (fun x => f (fst x)) (stored3 h))).
Proof.
  intros A h f H M. destruct (rrun3_ok h H) as [I P]. rewrite (rquery3_ok f _ M I). now apply Permutation_map, filter_perm'.
Qed.
Lemma C115_overlaps_and_points_2d_pf : forall (A : arith) (h : list (rop2 (num A))) (q : BoundingBox2 (num A)) (p : Point2 (num A)), HOrdered2 h ->
  Permutation (rquery2 (fun b => bb2_overlaps b q) (rrun2 h)) (map snd (filter (fun x => bb2_overlaps (fst x) q) (stored2 h))) /\
  Permutation (rquery2 (fun b => bb2_is_inside b p) (rrun2 h)) (map snd (filter (fun x => bb2_is_inside (fst x) p) (stored2 h))).
Proof.
  intros A h q p H. pose proof (num_OrdLaws A) as L. split; apply C115_search_2d_pf; try assumption; intros a b Oa Ob I K.
  - apply (Incl2_iff L) in I; [|assumption]. destruct I as [I1 I2]. exact (overlaps2_mono a b q I1 I2 K).
  - apply bb2_is_inside_iff, I, bb2_is_inside_iff, K.
Qed.
Lemma C115_overlaps_and_points_3d_pf : forall (A : arith) (h : list (rop3 (num A))) (q : BoundingBox3 (num A)) (p : Point3 (num A)), HOrdered3 h ->
  Permutation (rquery3 (fun b => bb3_overlaps b q) (rrun3 h)) (map snd (filter (fun x => bb3_overlaps (fst x) q) (stored3 h))) /\
  Permutation (rquery3 (fun b => bb3_is_inside b p) (rrun3 h)) (map snd (filter (fun x => bb3_is_inside (fst x) p) (stored3 h))).
Proof.
  intros A h q p H. pose proof (num_OrdLaws A) as L. split; apply C115_search_3d_pf; try assumption; intros a b Oa Ob I K.
  - apply (Incl3_iff L) in I; [|assumption]. destruct I as [I1 I2]. exact (overlaps3_mono a b q I1 I2 K).
  - apply bb3_is_inside_iff, I, bb3_is_inside_iff, K.
Qed.
