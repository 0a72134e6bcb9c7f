(** Helper lemmas and tactics for proofs at the exact scalar type. *)
From Coq Require Import Bool ZArith Reals Lra Lia Psatz.
From Flocq Require Import Core.Raux.
From Verif Require Import Scalar Types XReal SpecReal XTac.
Local Open Scope R_scope.

Lemma xsqrt_fin a : 0 <= a -> xsqrt (Fin a) = Fin (sqrt a).
Proof. intros H. unfold xsqrt. rewrite Rlt_bool_false; auto. Qed.
Lemma xdiv_fin a b : b <> 0 -> xdiv (Fin a) (Fin b) = Fin (a / b).
Proof. intros H. unfold xdiv. rewrite Req_bool_false; auto. Qed.
Lemma xle_fin a b : xle (Fin a) (Fin b) = true <-> a <= b.
Proof. unfold xle. destruct (Rle_bool_spec a b); split; try discriminate; auto; intros; lra. Qed.
Lemma xlt_fin a b : xlt (Fin a) (Fin b) = true <-> a < b.
Proof. unfold xlt. destruct (Rlt_bool_spec a b); split; try discriminate; auto; intros; lra. Qed.
Lemma xeq_fin a b : xeq (Fin a) (Fin b) = true <-> a = b.
Proof.
  unfold xeq. rewrite andb_true_iff, !xle_fin. lra.
Qed.
Lemma xeq_fin_false a b : xeq (Fin a) (Fin b) = false <-> a <> b.
Proof. rewrite <- xeq_fin. destruct (xeq (Fin a) (Fin b)); split; intro H; try congruence; now elim H. Qed.
Lemma Fin_inj a b : Fin a = Fin b -> a = b.
Proof. congruence. Qed.
Lemma Fin_eq a b : a = b -> Fin a = Fin b.
Proof. congruence. Qed.

Ltac xdestr := repeat match goal with
  | v : Point2 _ |- _ => destruct v | v : Point3 _ |- _ => destruct v
  | v : Vector2 _ |- _ => destruct v | v : Vector3 _ |- _ => destruct v
  | v : Ray2 _ |- _ => destruct v | v : Ray3 _ |- _ => destruct v
  | v : BoundingBox2 _ |- _ => destruct v | v : BoundingBox3 _ |- _ => destruct v
  | v : Matrix3x3 _ |- _ => destruct v | v : Matrix4x4 _ |- _ => destruct v
  | v : Transform2 _ |- _ => destruct v | v : Transform3 _ |- _ => destruct v
  end.

(* split an equation of results into equations of reals *)
Ltac xeqs := repeat match goal with
  | |- mkVector2 _ _ = mkVector2 _ _ => f_equal
  | |- mkVector3 _ _ _ = mkVector3 _ _ _ => f_equal
  | |- mkPoint2 _ _ = mkPoint2 _ _ => f_equal
  | |- mkPoint3 _ _ _ = mkPoint3 _ _ _ => f_equal
  | |- mkRay2 _ _ = mkRay2 _ _ => f_equal
  | |- mkRay3 _ _ = mkRay3 _ _ => f_equal
  | |- Fin _ = Fin _ => apply Fin_eq
  end.
Ltac xring := cbv zeta; intros; xdestr; xcbv; xeqs; ring.

Ltac sq_nonneg := repeat match goal with |- context [?x * ?x] => lazymatch goal with H : 0 <= x * x |- _ => fail | _ => pose proof (Rle_0_sqr x : 0 <= x * x) end end.

(** Reals *)
Lemma sq_nn x : 0 <= x * x.
Proof. apply Rle_0_sqr. Qed.
Lemma pow2_nn x : 0 <= x ^ 2.
Proof. rewrite <- Rsqr_pow2. apply Rle_0_sqr. Qed.
Lemma sq_zero x : x * x = 0 -> x = 0.
Proof. intros H. apply Rmult_integral in H. tauto. Qed.
Lemma sum2_zero x y : x * x + y * y = 0 -> x = 0 /\ y = 0.
Proof. intros H. pose proof (sq_nn x). pose proof (sq_nn y). split; apply sq_zero; lra. Qed.
Lemma sum3_zero x y z : x * x + y * y + z * z = 0 -> x = 0 /\ y = 0 /\ z = 0.
Proof.
  intros H. pose proof (sq_nn x). pose proof (sq_nn y). pose proof (sq_nn z).
  repeat split; apply sq_zero; lra.
Qed.
Lemma abs_le_sqrt x y : 0 <= y -> x * x <= y -> Rabs x <= sqrt y.
Proof.
  intros Hy H. rewrite <- sqrt_Rsqr_abs. apply sqrt_le_1; auto. apply Rle_0_sqr.
Qed.
Lemma Rdot2_self v : Rdot2 v v = v2x v ^ 2 + v2y v ^ 2.
Proof. unfold Rdot2. ring. Qed.
Lemma Rdot3_self v : Rdot3 v v = v3x v ^ 2 + v3y v ^ 2 + v3z v ^ 2.
Proof. unfold Rdot3. ring. Qed.
Lemma Rnorm2_dot v : Rnorm2 v = sqrt (Rdot2 v v).
Proof. unfold Rnorm2. now rewrite Rdot2_self. Qed.
Lemma Rnorm3_dot v : Rnorm3 v = sqrt (Rdot3 v v).
Proof. unfold Rnorm3. now rewrite Rdot3_self. Qed.
Lemma Rdot2_nn v : 0 <= Rdot2 v v.
Proof. unfold Rdot2. pose proof (sq_nn (v2x v)). pose proof (sq_nn (v2y v)). lra. Qed.
Lemma Rdot3_nn v : 0 <= Rdot3 v v.
Proof. unfold Rdot3. pose proof (sq_nn (v3x v)). pose proof (sq_nn (v3y v)). pose proof (sq_nn (v3z v)). lra. Qed.
Lemma Rdot2_zero v : Rdot2 v v = 0 <-> v = Rzero2.
Proof.
  destruct v as [x y]. unfold Rdot2, Rzero2; simpl. split.
  - intros H. destruct (sum2_zero x y H) as [-> ->]. reflexivity.
  - intros H. injection H as -> ->. ring.
Qed.
Lemma Rdot3_zero v : Rdot3 v v = 0 <-> v = Rzero3.
Proof.
  destruct v as [x y z]. unfold Rdot3, Rzero3; simpl. split.
  - intros H. destruct (sum3_zero x y z H) as [-> [-> ->]]. reflexivity.
  - intros H. injection H as -> -> ->. ring.
Qed.
Lemma Rdot2_pos v : v <> Rzero2 -> 0 < Rdot2 v v.
Proof. intros H. pose proof (Rdot2_nn v). destruct (Req_dec (Rdot2 v v) 0) as [E|E]; [|lra]. now apply Rdot2_zero in E. Qed.
Lemma Rdot3_pos v : v <> Rzero3 -> 0 < Rdot3 v v.
Proof. intros H. pose proof (Rdot3_nn v). destruct (Req_dec (Rdot3 v v) 0) as [E|E]; [|lra]. now apply Rdot3_zero in E. Qed.
Lemma Rnorm2_pos v : v <> Rzero2 -> 0 < Rnorm2 v.
Proof. intros H. rewrite Rnorm2_dot. apply sqrt_lt_R0. now apply Rdot2_pos. Qed.
Lemma Rnorm3_pos v : v <> Rzero3 -> 0 < Rnorm3 v.
Proof. intros H. rewrite Rnorm3_dot. apply sqrt_lt_R0. now apply Rdot3_pos. Qed.
Lemma Rnorm2_nn v : 0 <= Rnorm2 v.
Proof. rewrite Rnorm2_dot. apply sqrt_pos. Qed.
Lemma Rnorm3_nn v : 0 <= Rnorm3 v.
Proof. rewrite Rnorm3_dot. apply sqrt_pos. Qed.
Lemma Rnorm2_sq v : Rnorm2 v * Rnorm2 v = Rdot2 v v.
Proof. rewrite Rnorm2_dot. apply sqrt_sqrt. apply Rdot2_nn. Qed.
Lemma Rnorm3_sq v : Rnorm3 v * Rnorm3 v = Rdot3 v v.
Proof. rewrite Rnorm3_dot. apply sqrt_sqrt. apply Rdot3_nn. Qed.
Lemma Rnorm2_zero v : Rnorm2 v = 0 <-> v = Rzero2.
Proof.
  rewrite <- Rdot2_zero, <- Rnorm2_sq. split; intros H; [rewrite H; ring | now apply sq_zero].
Qed.
Lemma Rnorm3_zero v : Rnorm3 v = 0 <-> v = Rzero3.
Proof.
  rewrite <- Rdot3_zero, <- Rnorm3_sq. split; intros H; [rewrite H; ring | now apply sq_zero].
Qed.

Lemma cauchy2 a b : Rdot2 a b * Rdot2 a b <= Rdot2 a a * Rdot2 b b.
Proof.
  destruct a as [a1 a2], b as [b1 b2]. unfold Rdot2; simpl.
  pose proof (sq_nn (a1 * b2 - a2 * b1)). lra.
Qed.
Lemma cauchy3 a b : Rdot3 a b * Rdot3 a b <= Rdot3 a a * Rdot3 b b.
Proof.
  destruct a as [a1 a2 a3], b as [b1 b2 b3]. unfold Rdot3; simpl.
  pose proof (sq_nn (a1 * b2 - a2 * b1)). pose proof (sq_nn (a1 * b3 - a3 * b1)). pose proof (sq_nn (a2 * b3 - a3 * b2)). lra.
Qed.
Lemma cauchy2_abs a b : Rabs (Rdot2 a b) <= Rnorm2 a * Rnorm2 b.
Proof.
  rewrite !Rnorm2_dot, <- sqrt_mult_alt by apply Rdot2_nn. apply abs_le_sqrt; [|apply cauchy2].
  apply Rmult_le_pos; apply Rdot2_nn.
Qed.
Lemma cauchy3_abs a b : Rabs (Rdot3 a b) <= Rnorm3 a * Rnorm3 b.
Proof.
  rewrite !Rnorm3_dot, <- sqrt_mult_alt by apply Rdot3_nn. apply abs_le_sqrt; [|apply cauchy3].
  apply Rmult_le_pos; apply Rdot3_nn.
Qed.
Lemma triangle2 a b : Rnorm2 (mkVector2 (v2x a + v2x b) (v2y a + v2y b)) <= Rnorm2 a + Rnorm2 b.
Proof.
  set (c := mkVector2 _ _). pose proof (Rnorm2_nn a). pose proof (Rnorm2_nn b).
  apply Rsqr_incr_0_var; [|lra]. unfold Rsqr. rewrite Rnorm2_sq.
  replace (Rdot2 c c) with (Rdot2 a a + Rdot2 b b + 2 * Rdot2 a b)
    by (unfold c; destruct a, b; unfold Rdot2; simpl; ring).
  rewrite <- (Rnorm2_sq a), <- (Rnorm2_sq b).
  pose proof (cauchy2_abs a b). pose proof (Rle_abs (Rdot2 a b)). lra.
Qed.
Lemma triangle3 a b : Rnorm3 (mkVector3 (v3x a + v3x b) (v3y a + v3y b) (v3z a + v3z b)) <= Rnorm3 a + Rnorm3 b.
Proof.
  set (c := mkVector3 _ _ _). pose proof (Rnorm3_nn a). pose proof (Rnorm3_nn b).
  apply Rsqr_incr_0_var; [|lra]. unfold Rsqr. rewrite Rnorm3_sq.
  replace (Rdot3 c c) with (Rdot3 a a + Rdot3 b b + 2 * Rdot3 a b)
    by (unfold c; destruct a, b; unfold Rdot3; simpl; ring).
  rewrite <- (Rnorm3_sq a), <- (Rnorm3_sq b).
  pose proof (cauchy3_abs a b). pose proof (Rle_abs (Rdot3 a b)). lra.
Qed.
Lemma sqrt_lt_iff a b : 0 <= a -> 0 <= b -> (sqrt a < sqrt b <-> a < b).
Proof. intros Ha Hb. split; [apply sqrt_lt_0_alt | intros H; apply sqrt_lt_1; auto]. Qed.
