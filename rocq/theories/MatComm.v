(** Bit-exact matrix facts that need only commutativity of scalar multiplication (C36), at every [num A]. *)
From Coq Require Import Bool NArith.
From Verif Require Import Scalar Types Vector2 Vector3 Point2 Point3 Transform2 Transform3 Float XReal OrdLaws Arith Comm.

Lemma mkM3_eq {S : Type} (a0 a1 a2 a3 a4 a5 a6 a7 a8 b0 b1 b2 b3 b4 b5 b6 b7 b8 : S) :
  a0 = b0 -> a1 = b1 -> a2 = b2 -> a3 = b3 -> a4 = b4 -> a5 = b5 -> a6 = b6 -> a7 = b7 -> a8 = b8 ->
  mkM3 a0 a1 a2 a3 a4 a5 a6 a7 a8 = mkM3 b0 b1 b2 b3 b4 b5 b6 b7 b8.
Proof. intros; subst; reflexivity. Qed.
Lemma mkM4_eq {S : Type} (a0 a1 a2 a3 a4 a5 a6 a7 a8 a9 a10 a11 a12 a13 a14 a15 b0 b1 b2 b3 b4 b5 b6 b7 b8 b9 b10 b11 b12 b13 b14 b15 : S) :
  a0 = b0 -> a1 = b1 -> a2 = b2 -> a3 = b3 -> a4 = b4 -> a5 = b5 -> a6 = b6 -> a7 = b7 -> a8 = b8 -> a9 = b9 -> a10 = b10 -> a11 = b11 -> a12 = b12 -> a13 = b13 -> a14 = b14 -> a15 = b15 ->
  mkM4 a0 a1 a2 a3 a4 a5 a6 a7 a8 a9 a10 a11 a12 a13 a14 a15 = mkM4 b0 b1 b2 b3 b4 b5 b6 b7 b8 b9 b10 b11 b12 b13 b14 b15.
Proof. intros; subst; reflexivity. Qed.

Section A.
Context {A : arith}.
Implicit Types a b c d e g h i : num A.
Local Open Scope s_scope.
Lemma sum2_comm a b c d : a * b + c * d = b * a + d * c.
Proof. now rewrite (smul_comm a b), (smul_comm c d). Qed.
Lemma sum2_comm1 a b c d e : a * b + c * d + e = b * a + d * c + e.
Proof. now rewrite (smul_comm a b), (smul_comm c d). Qed.
Lemma sum3_comm a b c d e g : a * b + c * d + e * g = b * a + d * c + g * e.
Proof. now rewrite (smul_comm a b), (smul_comm c d), (smul_comm e g). Qed.
Lemma sum3_comm1 a b c d e g h : a * b + c * d + e * g + h = b * a + d * c + g * e + h.
Proof. now rewrite (smul_comm a b), (smul_comm c d), (smul_comm e g). Qed.
Lemma sum4_comm a b c d e g h i : a * b + c * d + e * g + h * i = b * a + d * c + g * e + i * h.
Proof. now rewrite (smul_comm a b), (smul_comm c d), (smul_comm e g), (smul_comm h i). Qed.

Lemma m3_transpose_mul (m n : Matrix3x3 (num A)) : m3_transpose (m3_mul m n) = m3_mul (m3_transpose n) (m3_transpose m).
Proof. unfold m3_transpose, m3_mul, m3_new. cbn [m3_0 m3_1 m3_2 m3_3 m3_4 m3_5 m3_6 m3_7 m3_8]. apply mkM3_eq; apply sum3_comm. Qed.
Lemma m4_transpose_mul (m n : Matrix4x4 (num A)) : m4_transpose (m4_mul m n) = m4_mul (m4_transpose n) (m4_transpose m).
Proof.
  unfold m4_transpose, m4_mul, m4_new.
  cbn [m4_0 m4_1 m4_2 m4_3 m4_4 m4_5 m4_6 m4_7 m4_8 m4_9 m4_10 m4_11 m4_12 m4_13 m4_14 m4_15]. apply mkM4_eq; apply sum4_comm.
Qed.
Lemma p2_mul_m3_transpose (p : Point2 (num A)) m : p2_mul_m3 p m = m3_mul_point (m3_transpose m) p.
Proof.
  unfold p2_mul_m3, m3_mul_point. cbn [m3_transpose m3_new m3_0 m3_1 m3_2 m3_3 m3_4 m3_5 m3_6 m3_7 m3_8].
  unfold p2_new. f_equal; (f_equal; apply sum2_comm1).
Qed.
Lemma v2_mul_m3_transpose (v : Vector2 (num A)) m : v2_mul_m3 v m = m3_mul_vector (m3_transpose m) v.
Proof.
  unfold v2_mul_m3, m3_mul_vector. cbn [m3_transpose m3_new m3_0 m3_1 m3_2 m3_3 m3_4 m3_5 m3_6 m3_7 m3_8].
  unfold v2_new. f_equal; apply sum2_comm.
Qed.
Lemma p3_mul_m4_transpose (p : Point3 (num A)) m : p3_mul_m4 p m = m4_mul_point (m4_transpose m) p.
Proof.
  unfold p3_mul_m4, m4_mul_point.
  cbn [m4_transpose m4_new m4_0 m4_1 m4_2 m4_3 m4_4 m4_5 m4_6 m4_7 m4_8 m4_9 m4_10 m4_11 m4_12 m4_13 m4_14 m4_15].
  unfold p3_new. f_equal; (f_equal; apply sum3_comm1).
Qed.
Lemma v3_mul_m4_transpose (v : Vector3 (num A)) m : v3_mul_m4 v m = m4_mul_vector (m4_transpose m) v.
Proof.
  unfold v3_mul_m4, m4_mul_vector.
  cbn [m4_transpose m4_new m4_0 m4_1 m4_2 m4_3 m4_4 m4_5 m4_6 m4_7 m4_8 m4_9 m4_10 m4_11 m4_12 m4_13 m4_14 m4_15].
  unfold v3_new. f_equal; apply sum3_comm.
Qed.
Lemma v2_dot_comm (a b : Vector2 (num A)) : v2_dot a b = v2_dot b a.
Proof. apply sum2_comm. Qed.
Lemma v3_dot_comm (a b : Vector3 (num A)) : v3_dot a b = v3_dot b a.
Proof. apply sum3_comm. Qed.
End A.
