(** Order facts shared by both scalar instances (used in proofs only; never a hypothesis of a property). *)
From Coq Require Import Bool ZArith Reals Lra Lia.
From Flocq Require Import Core.Zaux Core.Raux Core.Defs Core.Generic_fmt IEEE754.BinarySingleNaN.
From Verif Require Import Scalar Float XReal.

Record OrdLaws {S : Type} (O : ScalarOps S) : Prop := {
  ol_refl : forall x : S, snan x = false -> sle x x = true;
  ol_nan : forall x y : S, sle x y = true -> snan x = false /\ snan y = false;
  ol_total : forall x y : S, snan x = false -> snan y = false -> sle x y = true \/ sle y x = true;
  ol_trans : forall x y z : S, sle x y = true -> sle y z = true -> sle x z = true;
  ol_lt : forall x y : S, slt x y = negb (snan x) && negb (snan y) && negb (sle y x);
  ol_eq : forall x y : S, seq x y = sle x y && sle y x;
  ol_inf_nan : snan (sinf : S) = false;
  ol_ninf_nan : snan (sninf : S) = false;
  ol_zero_nan : snan (szero : S) = false;
  ol_inf : forall x : S, snan x = false -> sle x sinf = true;
  ol_ninf : forall x : S, snan x = false -> sle sninf x = true;
  ol_inf_ninf : sle (sinf : S) sninf = false;
  ol_min_nan1 : forall x y : S, snan x = true -> sfmin x y = y;
  ol_min_nan2 : forall x y : S, snan y = true -> snan x = false -> sfmin x y = x;
  ol_min_sel : forall x y : S, sfmin x y = x \/ sfmin x y = y;
  ol_min_le : forall x y : S, snan x = false -> snan y = false -> sle (sfmin x y) x = true /\ sle (sfmin x y) y = true;
  ol_max_nan1 : forall x y : S, snan x = true -> sfmax x y = y;
  ol_max_nan2 : forall x y : S, snan y = true -> snan x = false -> sfmax x y = x;
  ol_max_sel : forall x y : S, sfmax x y = x \/ sfmax x y = y;
  ol_max_le : forall x y : S, snan x = false -> snan y = false -> sle x (sfmax x y) = true /\ sle y (sfmax x y) = true;
  ol_abs_nan : forall x : S, snan x = false -> snan (sabs x) = false
}.

(** ** Exact level *)
Lemma xle_refl x : xnan x = false -> xle x x = true.
Proof. destruct x; try discriminate; try reflexivity. intros _. apply Rle_bool_true. apply Rle_refl. Qed.
Lemma xle_nan x y : xle x y = true -> xnan x = false /\ xnan y = false.
Proof. destruct x, y; try discriminate; split; reflexivity. Qed.
Lemma xle_total x y : xnan x = false -> xnan y = false -> xle x y = true \/ xle y x = true.
Proof.
  destruct x, y; try discriminate; intros _ _; simpl; auto.
  destruct (Rle_or_lt r r0); [left | right]; apply Rle_bool_true; lra.
Qed.
Lemma xle_trans x y z : xle x y = true -> xle y z = true -> xle x z = true.
Proof.
  destruct x, y, z; simpl; try discriminate; try reflexivity.
  intros H1 H2. apply Rle_bool_true.
  revert H1 H2. case Rle_bool_spec; [|discriminate]. case Rle_bool_spec; [|discriminate]. intros; lra.
Qed.
Lemma xlt_xle x y : xlt x y = negb (xnan x) && negb (xnan y) && negb (xle y x).
Proof.
  destruct x, y; simpl; try reflexivity.
  case Rlt_bool_spec; case Rle_bool_spec; intros; try reflexivity; lra.
Qed.

Lemma xreal_OrdLaws : OrdLaws xreal_ops.
Proof.
  constructor; cbn -[xle xlt].
  - apply xle_refl.
  - apply xle_nan.
  - apply xle_total.
  - apply xle_trans.
  - apply xlt_xle.
  - reflexivity.
  - reflexivity.
  - reflexivity.
  - reflexivity.
  - destruct x; try discriminate; reflexivity.
  - destruct x; try discriminate; reflexivity.
  - reflexivity.
  - intros x y H. unfold xmin. now rewrite H.
  - intros x y H H'. unfold xmin. now rewrite H, H'.
  - intros x y. unfold xmin. destruct (xnan x), (xnan y), (xle x y); auto.
  - intros x y Hx Hy. unfold xmin. rewrite Hx, Hy. destruct (xle x y) eqn:E.
    + split; [now apply xle_refl | assumption].
    + destruct (xle_total x y Hx Hy) as [H|H]; [congruence|]. split; [assumption | now apply xle_refl].
  - intros x y H. unfold xmax. now rewrite H.
  - intros x y H H'. unfold xmax. now rewrite H, H'.
  - intros x y. unfold xmax. destruct (xnan x), (xnan y), (xle x y); auto.
  - intros x y Hx Hy. unfold xmax. rewrite Hx, Hy. destruct (xle x y) eqn:E.
    + split; [assumption | now apply xle_refl].
    + destruct (xle_total x y Hx Hy) as [H|H]; [congruence|]. split; [now apply xle_refl | assumption].
  - destruct x; try discriminate; reflexivity.
Qed.

(** ** IEEE level *)
(* The value of a float in the extended reals. *)
Definition toX {f : format} (x : F f) : xreal :=
  match x with
  | B754_zero _ => Fin 0
  | B754_infinity false => PInf
  | B754_infinity true => NInf
  | B754_nan => XNaN
  | B754_finite _ _ _ _ => Fin (B2R x)
  end.

Lemma toX_finite {f} (x : F f) : is_finite x = true -> toX x = Fin (B2R x).
Proof. destruct x; try discriminate; reflexivity. Qed.

Lemma fle_toX {f} (x y : F f) : fle x y = xle (toX x) (toX y).
Proof.
  unfold fle.
  destruct (is_finite x) eqn:Fx, (is_finite y) eqn:Fy.
  - rewrite Bleb_correct, !toX_finite by assumption. reflexivity.
  - rewrite (toX_finite x) by assumption.
    destruct x as [| | |s m e H]; try discriminate; destruct y as [|[]| |]; try discriminate; try reflexivity; now destruct s.
  - rewrite (toX_finite y) by assumption.
    destruct y as [| | |s m e H]; try discriminate; destruct x as [|[]| |]; try discriminate; try reflexivity; now destruct s.
  - destruct x as [|[]| |]; try discriminate; destruct y as [|[]| |]; try discriminate; reflexivity.
Qed.
Lemma flt_toX {f} (x y : F f) : flt x y = xlt (toX x) (toX y).
Proof.
  unfold flt.
  destruct (is_finite x) eqn:Fx, (is_finite y) eqn:Fy.
  - rewrite Bltb_correct, !toX_finite by assumption. reflexivity.
  - rewrite (toX_finite x) by assumption.
    destruct x as [| | |s m e H]; try discriminate; destruct y as [|[]| |]; try discriminate; try reflexivity; now destruct s.
  - rewrite (toX_finite y) by assumption.
    destruct y as [| | |s m e H]; try discriminate; destruct x as [|[]| |]; try discriminate; try reflexivity; now destruct s.
  - destruct x as [|[]| |]; try discriminate; destruct y as [|[]| |]; try discriminate; reflexivity.
Qed.
Lemma feq_toX {f} (x y : F f) : feq x y = xeq (toX x) (toX y).
Proof.
  unfold feq, xeq.
  destruct (is_finite x) eqn:Fx, (is_finite y) eqn:Fy.
  - rewrite Beqb_correct, !toX_finite by assumption. simpl.
    case Req_bool_spec; case Rle_bool_spec; case Rle_bool_spec; intros; try reflexivity; lra.
  - rewrite (toX_finite x) by assumption.
    destruct x as [| | |s m e H]; try discriminate; destruct y as [|[]| |]; try discriminate; try reflexivity; now destruct s.
  - rewrite (toX_finite y) by assumption.
    destruct y as [| | |s m e H]; try discriminate; destruct x as [|[]| |]; try discriminate; try reflexivity; now destruct s.
  - destruct x as [|[]| |]; try discriminate; destruct y as [|[]| |]; try discriminate; reflexivity.
Qed.
Lemma fnan_toX {f} (x : F f) : fnan x = xnan (toX x).
Proof. destruct x as [|[]| |]; reflexivity. Qed.

Lemma fle_refl {f} (x : F f) : fnan x = false -> fle x x = true.
Proof. rewrite fle_toX, fnan_toX. apply xle_refl. Qed.
Lemma fle_nan {f} (x y : F f) : fle x y = true -> fnan x = false /\ fnan y = false.
Proof. rewrite fle_toX, !fnan_toX. apply xle_nan. Qed.
Lemma fle_total {f} (x y : F f) : fnan x = false -> fnan y = false -> fle x y = true \/ fle y x = true.
Proof. rewrite !fle_toX, !fnan_toX. apply xle_total. Qed.
Lemma fle_trans {f} (x y z : F f) : fle x y = true -> fle y z = true -> fle x z = true.
Proof. rewrite !fle_toX. apply xle_trans. Qed.
Lemma flt_fle {f} (x y : F f) : flt x y = negb (fnan x) && negb (fnan y) && negb (fle y x).
Proof. rewrite flt_toX, fle_toX, !fnan_toX. apply xlt_xle. Qed.
Lemma feq_fle {f} (x y : F f) : feq x y = fle x y && fle y x.
Proof. rewrite feq_toX, !fle_toX. reflexivity. Qed.

Lemma float_OrdLaws (f : format) (P : platform f) : OrdLaws (float_ops f P).
Proof.
  constructor; cbn -[fle flt feq fnan fzero finf fninf].
  - apply fle_refl.
  - apply fle_nan.
  - apply fle_total.
  - apply fle_trans.
  - apply flt_fle.
  - apply feq_fle.
  - reflexivity.
  - reflexivity.
  - reflexivity.
  - intros x. rewrite fle_toX, fnan_toX. destruct (toX x); try discriminate; reflexivity.
  - intros x. rewrite fle_toX, fnan_toX. destruct (toX x); try discriminate; reflexivity.
  - reflexivity.
  - intros x y H. unfold fmin. now rewrite H.
  - intros x y H H'. unfold fmin. now rewrite H, H'.
  - intros x y. unfold fmin. destruct (fnan x), (fnan y), (flt x y), (flt y x), (pf_min_first P x y); auto.
  - intros x y Hx Hy. unfold fmin. rewrite Hx, Hy, !flt_fle, Hx, Hy.
    pose proof (fle_refl x Hx). pose proof (fle_refl y Hy). pose proof (fle_total x y Hx Hy).
    destruct (fle y x) eqn:E1, (fle x y) eqn:E2, (pf_min_first P x y); simpl; intuition congruence.
  - intros x y H. unfold fmax. now rewrite H.
  - intros x y H H'. unfold fmax. now rewrite H, H'.
  - intros x y. unfold fmax. destruct (fnan x), (fnan y), (flt x y), (flt y x), (pf_max_first P x y); auto.
  - intros x y Hx Hy. unfold fmax. rewrite Hx, Hy, !flt_fle, Hx, Hy.
    pose proof (fle_refl x Hx). pose proof (fle_refl y Hy). pose proof (fle_total x y Hx Hy).
    destruct (fle y x) eqn:E1, (fle x y) eqn:E2, (pf_max_first P x y); simpl; intuition congruence.
  - destruct x; try discriminate; reflexivity.
Qed.
