(** Derived equality (C53), generically from [OrdLaws]. *)
From Coq Require Import Bool NArith List.
From Verif Require Import Scalar Types OrdLaws SpecOrder SpecStruct OrderProofs.
Import ListNotations.

Section Gen.
Context {S : Type} {O : ScalarOps S} (L : OrdLaws O).

Lemma Eqs_sym x y : Eqs x y -> Eqs y x.
Proof. rewrite !(Eqs_iff L). tauto. Qed.
Lemma Eqs_trans x y z : Eqs x y -> Eqs y z -> Eqs x z.
Proof. rewrite !(Eqs_iff L). intros [? ?] [? ?]. split; eapply (Le_trans L); eassumption. Qed.
Lemma Eqs_refl_iff x : Eqs x x <-> NoNaN x.
Proof. split; [rewrite (Eqs_iff L); intros [H _]; apply (Le_nan L _ _ H) | apply (Eqs_refl L)]. Qed.

Lemma F2_cons x y (l l' : list S) : Forall2 Eqs (x :: l) (y :: l') <-> seq x y = true /\ Forall2 Eqs l l'.
Proof. split; [intros H; inversion H; auto | intros [H1 H2]; constructor; auto]. Qed.
Lemma F2_nil : Forall2 Eqs (@nil S) [] <-> True.
Proof. split; auto. Qed.

Ltac feq := intros; cbn [app p2_comps p3_comps v2_comps v3_comps r2_comps r3_comps bb2_comps bb3_comps m3_comps m4_comps t2_comps t3_comps];
  unfold t2_eq, t3_eq, r2_eq, r3_eq, bb2_eq, bb3_eq, p2_eq, p3_eq, v2_eq, v3_eq, m3_eq, m4_eq;
  unfold t2_comps, t3_comps, r2_comps, r3_comps, bb2_comps, bb3_comps, p2_comps, p3_comps, v2_comps, v3_comps, m3_comps, m4_comps;
  cbn [app]; rewrite !F2_cons, F2_nil, !andb_true_iff; tauto.
Lemma p2_eq_iff a b : p2_eq a b = true <-> Forall2 Eqs (p2_comps a) (p2_comps b). Proof. feq. Qed.
Lemma p3_eq_iff a b : p3_eq a b = true <-> Forall2 Eqs (p3_comps a) (p3_comps b). Proof. feq. Qed.
Lemma v2_eq_iff a b : v2_eq a b = true <-> Forall2 Eqs (v2_comps a) (v2_comps b). Proof. feq. Qed.
Lemma v3_eq_iff a b : v3_eq a b = true <-> Forall2 Eqs (v3_comps a) (v3_comps b). Proof. feq. Qed.
Lemma r2_eq_iff a b : r2_eq a b = true <-> Forall2 Eqs (r2_comps a) (r2_comps b). Proof. feq. Qed.
Lemma r3_eq_iff a b : r3_eq a b = true <-> Forall2 Eqs (r3_comps a) (r3_comps b). Proof. feq. Qed.
Lemma bb2_eq_iff a b : bb2_eq a b = true <-> Forall2 Eqs (bb2_comps a) (bb2_comps b). Proof. feq. Qed.
Lemma bb3_eq_iff a b : bb3_eq a b = true <-> Forall2 Eqs (bb3_comps a) (bb3_comps b). Proof. feq. Qed.
Lemma m3_eq_iff a b : m3_eq a b = true <-> Forall2 Eqs (m3_comps a) (m3_comps b). Proof. feq. Qed.
Lemma m4_eq_iff a b : m4_eq a b = true <-> Forall2 Eqs (m4_comps a) (m4_comps b). Proof. feq. Qed.
Lemma F2_app (l1 l2 l1' l2' : list S) : length l1 = length l1' ->
  (Forall2 Eqs (l1 ++ l2) (l1' ++ l2') <-> Forall2 Eqs l1 l1' /\ Forall2 Eqs l2 l2').
Proof.
  revert l1'. induction l1 as [|x l1 IH]; intros [|y l1'] E; try discriminate; cbn [app].
  - split; [auto | tauto].
  - injection E as E. rewrite !F2_cons, (IH _ E). tauto.
Qed.
Lemma t2_eq_iff a b : t2_eq a b = true <-> Forall2 Eqs (t2_comps a) (t2_comps b).
Proof. unfold t2_eq, t2_comps. rewrite andb_true_iff, !m3_eq_iff, F2_app by reflexivity. tauto. Qed.
Lemma t3_eq_iff a b : t3_eq a b = true <-> Forall2 Eqs (t3_comps a) (t3_comps b).
Proof. unfold t3_eq, t3_comps. rewrite andb_true_iff, !m4_eq_iff, F2_app by reflexivity. tauto. Qed.

Lemma derive {T : Type} (eqb : T -> T -> bool) (comps : T -> list S) :
  (forall a b, eqb a b = true <-> Forall2 Eqs (comps a) (comps b)) -> derived_eq eqb comps.
Proof.
  intros H. split; [exact H|].
  assert (Sy : forall l l' : list S, Forall2 Eqs l l' -> Forall2 Eqs l' l).
  { induction 1; constructor; auto using Eqs_sym. }
  split; [|split].
  - intros a b. apply eq_true_iff_eq. rewrite !H. split; apply Sy.
  - intros a b c. rewrite !H. generalize (comps a), (comps b), (comps c). clear H.
    intros la lb lc H. revert lc. induction H; intros lc H'; inversion H'; subst; constructor; [eapply Eqs_trans; eassumption | auto].
  - intros a. rewrite H. induction (comps a) as [|x l IH].
    + split; constructor.
    + rewrite F2_cons, IH. fold (Eqs x x). rewrite Eqs_refl_iff. split.
      * intros [? ?]; constructor; auto.
      * intros K; inversion K; auto.
Qed.
End Gen.
