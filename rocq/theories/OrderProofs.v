(** Proofs of the order-based properties, generically from [OrdLaws]. *)
From Coq Require Import Bool NArith List Lia.
From Verif Require Import Scalar Types Vector2 Vector3 Point2 Point3 Ray BoundingBox2 BoundingBox3 OrdLaws SpecOrder.
Import ListNotations.

Section Gen.
Context {S : Type} {O : ScalarOps S} (L : OrdLaws O).

Lemma Le_refl x : NoNaN x -> Le x x. Proof. apply (ol_refl _ L). Qed.
Lemma Le_nan x y : Le x y -> NoNaN x /\ NoNaN y. Proof. apply (ol_nan _ L). Qed.
Lemma Le_nan1 x y : Le x y -> NoNaN x. Proof. intros H; apply (Le_nan _ _ H). Qed.
Lemma Le_nan2 x y : Le x y -> NoNaN y. Proof. intros H; apply (Le_nan _ _ H). Qed.
Lemma Le_total x y : NoNaN x -> NoNaN y -> Le x y \/ Le y x. Proof. apply (ol_total _ L). Qed.
Lemma Le_trans x y z : Le x y -> Le y z -> Le x z. Proof. apply (ol_trans _ L). Qed.
Lemma Eqs_iff x y : Eqs x y <-> Le x y /\ Le y x.
Proof. unfold Eqs, Le. rewrite (ol_eq _ L). apply andb_true_iff. Qed.
Lemma Eqs_refl x : NoNaN x -> Eqs x x.
Proof. rewrite Eqs_iff. intros H; split; now apply Le_refl. Qed.
Lemma Lt_iff x y : Lt x y <-> NoNaN x /\ NoNaN y /\ ~ Le y x.
Proof.
  unfold Lt, NoNaN, Le. rewrite (ol_lt _ L).
  destruct (snan x), (snan y), (sle y x); simpl; intuition congruence.
Qed.
Lemma Lt_Le x y : Lt x y -> Le x y.
Proof. rewrite Lt_iff. intros (Hx & Hy & H). destruct (Le_total x y Hx Hy); tauto. Qed.
Lemma not_Lt_Le x y : NoNaN x -> NoNaN y -> slt x y = false -> Le y x.
Proof.
  intros Hx Hy H. unfold Le. rewrite (ol_lt _ L), Hx, Hy in H. simpl in H. now destruct (sle y x).
Qed.
Lemma not_Le_Le x y : NoNaN x -> NoNaN y -> sle x y = false -> Le y x.
Proof. intros Hx Hy H. destruct (Le_total x y Hx Hy) as [C|C]; [unfold Le in C; congruence | exact C]. Qed.

Lemma min_NoNaN x y : NoNaN x -> NoNaN y -> NoNaN (s_min x y).
Proof. intros Hx Hy. unfold s_min. destruct (ol_min_sel _ L x y) as [-> | ->]; assumption. Qed.
Lemma max_NoNaN x y : NoNaN x -> NoNaN y -> NoNaN (s_max x y).
Proof. intros Hx Hy. unfold s_max. destruct (ol_max_sel _ L x y) as [-> | ->]; assumption. Qed.
Lemma min_lb1 x y : NoNaN x -> NoNaN y -> Le (s_min x y) x. Proof. intros; now apply (ol_min_le _ L). Qed.
Lemma min_lb2 x y : NoNaN x -> NoNaN y -> Le (s_min x y) y. Proof. intros; now apply (ol_min_le _ L). Qed.
Lemma max_ub1 x y : NoNaN x -> NoNaN y -> Le x (s_max x y). Proof. intros; now apply (ol_max_le _ L). Qed.
Lemma max_ub2 x y : NoNaN x -> NoNaN y -> Le y (s_max x y). Proof. intros; now apply (ol_max_le _ L). Qed.
Lemma min_glb x y z : Le z x -> Le z y -> Le z (s_min x y).
Proof. intros. unfold s_min. destruct (ol_min_sel _ L x y) as [-> | ->]; assumption. Qed.
Lemma max_lub x y z : Le x z -> Le y z -> Le (s_max x y) z.
Proof. intros. unfold s_max. destruct (ol_max_sel _ L x y) as [-> | ->]; assumption. Qed.
Lemma le_min_iff x y z : NoNaN x -> NoNaN y -> (Le z (s_min x y) <-> Le z x /\ Le z y).
Proof.
  intros Hx Hy; split.
  - intros H; split; [apply (Le_trans _ _ _ H (min_lb1 x y Hx Hy)) | apply (Le_trans _ _ _ H (min_lb2 x y Hx Hy))].
  - intros [? ?]; now apply min_glb.
Qed.
Lemma max_le_iff x y z : NoNaN x -> NoNaN y -> (Le (s_max x y) z <-> Le x z /\ Le y z).
Proof.
  intros Hx Hy; split.
  - intros H; split; [apply (Le_trans _ _ _ (max_ub1 x y Hx Hy) H) | apply (Le_trans _ _ _ (max_ub2 x y Hx Hy) H)].
  - intros [? ?]; now apply max_lub.
Qed.
Lemma min_le_iff x y z : NoNaN x -> NoNaN y -> (Le (s_min x y) z <-> Le x z \/ Le y z).
Proof.
  intros Hx Hy; split.
  - unfold s_min. destruct (ol_min_sel _ L x y) as [-> | ->]; auto.
  - intros [H|H]; [apply (Le_trans _ _ _ (min_lb1 x y Hx Hy) H) | apply (Le_trans _ _ _ (min_lb2 x y Hx Hy) H)].
Qed.
Lemma le_max_iff x y z : NoNaN x -> NoNaN y -> (Le z (s_max x y) <-> Le z x \/ Le z y).
Proof.
  intros Hx Hy; split.
  - unfold s_max. destruct (ol_max_sel _ L x y) as [-> | ->]; auto.
  - intros [H|H]; [apply (Le_trans _ _ _ H (max_ub1 x y Hx Hy)) | apply (Le_trans _ _ _ H (max_ub2 x y Hx Hy))].
Qed.
Lemma min_eq1 x y : Le x y -> Eqs (s_min x y) x.
Proof. intros H. destruct (Le_nan _ _ H). rewrite Eqs_iff. split; [now apply min_lb1 | apply min_glb; [now apply Le_refl | assumption]]. Qed.
Lemma max_eq2 x y : Le x y -> Eqs (s_max x y) y.
Proof. intros H. destruct (Le_nan _ _ H). rewrite Eqs_iff. split; [apply max_lub; [assumption | now apply Le_refl] | now apply max_ub2]. Qed.
Lemma Le_inf x : NoNaN x -> Le x sinf. Proof. apply (ol_inf _ L). Qed.
Lemma ninf_Le x : NoNaN x -> Le sninf x. Proof. apply (ol_ninf _ L). Qed.
Lemma inf_NoNaN : NoNaN (sinf : S). Proof. apply (ol_inf_nan _ L). Qed.
Lemma ninf_NoNaN : NoNaN (sninf : S). Proof. apply (ol_ninf_nan _ L). Qed.
Lemma inf_not_Le_ninf : ~ Le (sinf : S) sninf. Proof. unfold Le. rewrite (ol_inf_ninf _ L). discriminate. Qed.

(** *** C01 *)
Lemma scalar_min_law x y :
  (s_min x y = x \/ s_min x y = y) /\
  (NoNaN x -> NoNaN y -> Le (s_min x y) x /\ Le (s_min x y) y) /\
  (~ NoNaN x -> s_min x y = y) /\ (~ NoNaN y -> NoNaN x -> s_min x y = x).
Proof.
  unfold s_min, NoNaN. repeat split.
  - apply (ol_min_sel _ L).
  - now apply (ol_min_le _ L).
  - now apply (ol_min_le _ L).
  - intros H. apply (ol_min_nan1 _ L). now destruct (snan x).
  - intros H H'. apply (ol_min_nan2 _ L); [now destruct (snan y) | assumption].
Qed.
Lemma scalar_max_law x y :
  (s_max x y = x \/ s_max x y = y) /\
  (NoNaN x -> NoNaN y -> Le x (s_max x y) /\ Le y (s_max x y)) /\
  (~ NoNaN x -> s_max x y = y) /\ (~ NoNaN y -> NoNaN x -> s_max x y = x).
Proof.
  unfold s_max, NoNaN. repeat split.
  - apply (ol_max_sel _ L).
  - now apply (ol_max_le _ L).
  - now apply (ol_max_le _ L).
  - intros H. apply (ol_max_nan1 _ L). now destruct (snan x).
  - intros H H'. apply (ol_max_nan2 _ L); [now destruct (snan y) | assumption].
Qed.

(** Tactics: reduce a statement about points and boxes to scalars *)
Lemma forall_d2 (Q : Dimension2 -> Prop) : (forall d, Q d) <-> Q D2X /\ Q D2Y.
Proof. split; [auto | intros [? ?] []; auto]. Qed.
Lemma forall_d3 (Q : Dimension3 -> Prop) : (forall d, Q d) <-> Q D3X /\ Q D3Y /\ Q D3Z.
Proof. split; [auto | intros (? & ? & ?) []; auto]. Qed.

Lemma sle_Le x y : sle x y = true <-> Le x y. Proof. reflexivity. Qed.

Lemma min_spec x y : NoNaN x -> NoNaN y -> (s_min x y = x /\ Le x y) \/ (s_min x y = y /\ Le y x).
Proof.
  intros Hx Hy. pose proof (min_lb1 x y Hx Hy) as H1. pose proof (min_lb2 x y Hx Hy) as H2.
  unfold s_min in *. destruct (ol_min_sel _ L x y) as [E|E]; rewrite E in *; auto.
Qed.
Lemma max_spec x y : NoNaN x -> NoNaN y -> (s_max x y = x /\ Le y x) \/ (s_max x y = y /\ Le x y).
Proof.
  intros Hx Hy. pose proof (max_ub1 x y Hx Hy) as H1. pose proof (max_ub2 x y Hx Hy) as H2.
  unfold s_max in *. destruct (ol_max_sel _ L x y) as [E|E]; rewrite E in *; auto.
Qed.
End Gen.

Ltac oexpand :=
  unfold BEq2, BEq3, In2, In3, Ordered2, Ordered3, NoNaN2, NoNaN3, VNoNaN2, VNoNaN3,
         PLe2, PLe3, VLe2, VLe3, PEq2, PEq3, VEq2, VEq3 in *;
  repeat rewrite forall_d2 in *; repeat rewrite forall_d3 in *;
  cbn [coord2 coord3 vcoord2 vcoord3 p2x p2y p3x p3y p3z v2x v2y v3x v3y v3z
       bb2_min bb2_max bb3_min bb3_max
       p2_new p3_new v2_new v3_new p2_min p2_max p3_min p3_max v2_min v2_max v3_min v3_max
       bb2_new bb3_new bb2_union bb3_union bb2_union_point bb3_union_point bb2_empty bb3_empty bb2_infinite bb3_infinite] in *.

Ltac osplit := repeat match goal with
  | H : _ /\ _ |- _ => destruct H
  | |- _ /\ _ => split
  end.

(* every Le fact gives two NoNaN facts *)
Ltac onans L :=
  repeat match goal with
  | H : Le ?x ?y |- _ =>
      lazymatch goal with
      | _ : NoNaN x, _ : NoNaN y |- _ => fail
      | _ => destruct (Le_nan L x y H)
      end
  end;
  repeat match goal with
  | |- context [@sinf ?S ?O] => lazymatch goal with _ : NoNaN (@sinf S O) |- _ => fail | _ => pose proof (inf_NoNaN L) end
  | |- context [@sninf ?S ?O] => lazymatch goal with _ : NoNaN (@sninf S O) |- _ => fail | _ => pose proof (ninf_NoNaN L) end
  | _ : context [@sinf ?S ?O] |- _ => lazymatch goal with _ : NoNaN (@sinf S O) |- _ => fail | _ => pose proof (inf_NoNaN L) end
  | _ : context [@sninf ?S ?O] |- _ => lazymatch goal with _ : NoNaN (@sninf S O) |- _ => fail | _ => pose proof (ninf_NoNaN L) end
  end.
Ltac onan L := first [assumption | apply (min_NoNaN L); onan L | apply (max_NoNaN L); onan L
                      | apply (inf_NoNaN L) | apply (ninf_NoNaN L)].
(* split every min/max in the goal into its cases, innermost first *)
Ltac ocases L :=
  repeat match goal with
  | |- context [s_min ?x ?y] =>
      lazymatch x with context [s_min _ _] => fail | context [s_max _ _] => fail | _ => idtac end;
      lazymatch y with context [s_min _ _] => fail | context [s_max _ _] => fail | _ => idtac end;
      let E := fresh in destruct (min_spec L x y) as [[E ?]|[E ?]]; [onan L | onan L | rewrite E in * | rewrite E in *]
  | |- context [s_max ?x ?y] =>
      lazymatch x with context [s_min _ _] => fail | context [s_max _ _] => fail | _ => idtac end;
      lazymatch y with context [s_min _ _] => fail | context [s_max _ _] => fail | _ => idtac end;
      let E := fresh in destruct (max_spec L x y) as [[E ?]|[E ?]]; [onan L | onan L | rewrite E in * | rewrite E in *]
  end.
Ltac ole L n :=
  lazymatch goal with
  | |- Eqs _ _ => apply (Eqs_iff L); split; ole L n
  | |- NoNaN _ => onan L
  | |- Le _ _ =>
      first [ assumption
            | apply (Le_refl L); onan L
            | apply (Le_inf L); onan L
            | apply (ninf_Le L); onan L
            | lazymatch n with
              | 0 => fail
              | Datatypes.S ?m =>
                multimatch goal with
                | H : Le ?x ?y |- Le ?x _ => apply (Le_trans L _ y _ H); clear H; ole L m
                | H : Le ?y ?z |- Le _ ?z => refine (Le_trans L _ y _ _ H); clear H; ole L m
                end
              end ]
  end.
Ltac osolve L := oexpand; osplit; onans L; ocases L; onans L; ole L 4.
