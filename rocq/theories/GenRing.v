(** Proofs: the algebra over any scalar type that obeys the laws of arithmetic (C100). *)
From Coq Require Import Bool NArith List Ring.
From Verif Require Import Scalar Types Vector2 Vector3 Point2 Point3 Ray Transform2 Transform3 SpecRing Adj4.
Import ListNotations.
Lemma ring_of {S : Type} {O : ScalarOps S} : RingLaws S -> ring_theory szero sone sadd smul ssub sneg (eq (A:=S)).
Proof. intros H. constructor; apply H. Qed.
Ltac m3cbn := cbn [m3_0 m3_1 m3_2 m3_3 m3_4 m3_5 m3_6 m3_7 m3_8].
Ltac m4cbn := cbn [m4_0 m4_1 m4_2 m4_3 m4_4 m4_5 m4_6 m4_7 m4_8 m4_9 m4_10 m4_11 m4_12 m4_13 m4_14 m4_15].
Section R.
Context {S : Type} {O : ScalarOps S}.
Context (RT : ring_theory szero sone sadd smul ssub sneg (eq (A:=S))) (DL : DivLaws S).
Add Ring Sr : RT.
Local Open Scope s_scope.
Lemma mk3_eq (a0 a1 a2 a3 a4 a5 a6 a7 a8 b0 b1 b2 b3 b4 b5 b6 b7 b8 : S) : a0 = b0 -> a1 = b1 -> a2 = b2 -> a3 = b3 -> a4 = b4 -> a5 = b5 -> a6 = b6 -> a7 = b7 -> a8 = b8 -> mkM3 a0 a1 a2 a3 a4 a5 a6 a7 a8 = mkM3 b0 b1 b2 b3 b4 b5 b6 b7 b8.
Proof. intros; subst; reflexivity. Qed.
Lemma mk4_eq (a0 a1 a2 a3 a4 a5 a6 a7 a8 a9 a10 a11 a12 a13 a14 a15 b0 b1 b2 b3 b4 b5 b6 b7 b8 b9 b10 b11 b12 b13 b14 b15 : S) : a0 = b0 -> a1 = b1 -> a2 = b2 -> a3 = b3 -> a4 = b4 -> a5 = b5 -> a6 = b6 -> a7 = b7 -> a8 = b8 -> a9 = b9 -> a10 = b10 -> a11 = b11 -> a12 = b12 -> a13 = b13 -> a14 = b14 -> a15 = b15 -> mkM4 a0 a1 a2 a3 a4 a5 a6 a7 a8 a9 a10 a11 a12 a13 a14 a15 = mkM4 b0 b1 b2 b3 b4 b5 b6 b7 b8 b9 b10 b11 b12 b13 b14 b15.
Proof. intros; subst; reflexivity. Qed.
Lemma unit_div x y z : y * z = sone -> x / y = x * z.
Proof.
  intros H. assert (U : Unit y) by (exists z; exact H). pose proof (dl_div DL x y U) as D. transitivity ((x / y) * y * z); [|rewrite D; reflexivity].
  transitivity ((x / y) * (y * z)); [rewrite H; ring | ring].
Qed.
Lemma div_1 x : x / sone = x.
Proof. rewrite (unit_div x sone sone); ring. Qed.
Lemma unit_mul x y : Unit x -> Unit y -> Unit (x * y).
Proof. intros [a A] [b B]. exists (a * b). transitivity ((x * a) * (y * b)); [ring | rewrite A, B; ring]. Qed.
Lemma unit_fst x y : Unit (x * y) -> Unit x.
Proof. intros [a A]. exists (y * a). rewrite <- A. ring. Qed.
Lemma recip_r y : Unit y -> y * srecip y = sone.
Proof. intros U. rewrite <- (dl_recip DL y U). ring. Qed.
(* products *)
Lemma m3_assoc (a b c : Matrix3x3 S) : m3_mul a (m3_mul b c) = m3_mul (m3_mul a b) c.
Proof. destruct a, b, c. unfold m3_mul, m3_new. m3cbn. try apply mk3_eq; ring. Qed.
Lemma m4_assoc (a b c : Matrix4x4 S) : m4_mul a (m4_mul b c) = m4_mul (m4_mul a b) c.
Proof. destruct a, b, c. unfold m4_mul, m4_new. m4cbn. try apply mk4_eq; ring. Qed.
Lemma m3_id_l (a : Matrix3x3 S) : m3_mul m3_identity a = a.
Proof. destruct a. unfold m3_mul, m3_identity, m3_new. m3cbn. try apply mk3_eq; ring. Qed.
Lemma m4_id_l (a : Matrix4x4 S) : m4_mul m4_identity a = a.
Proof. destruct a. unfold m4_mul, m4_identity, m4_new. m4cbn. try apply mk4_eq; ring. Qed.
Lemma m3_id_r (a : Matrix3x3 S) : m3_mul a m3_identity = a.
Proof. destruct a. unfold m3_mul, m3_identity, m3_new. m3cbn. try apply mk3_eq; ring. Qed.
Lemma m4_id_r (a : Matrix4x4 S) : m4_mul a m4_identity = a.
Proof. destruct a. unfold m4_mul, m4_identity, m4_new. m4cbn. try apply mk4_eq; ring. Qed.
Lemma m3_tr_mul (a b : Matrix3x3 S) : m3_transpose (m3_mul a b) = m3_mul (m3_transpose b) (m3_transpose a).
Proof. destruct a, b. unfold m3_mul, m3_transpose, m3_new. m3cbn. try apply mk3_eq; ring. Qed.
Lemma m4_tr_mul (a b : Matrix4x4 S) : m4_transpose (m4_mul a b) = m4_mul (m4_transpose b) (m4_transpose a).
Proof. destruct a, b. unfold m4_mul, m4_transpose, m4_new. m4cbn. try apply mk4_eq; ring. Qed.
(* determinants *)
Lemma d3 (a b : Matrix3x3 S) : m3_det (m3_mul a b) = m3_det a * m3_det b.
Proof. destruct a, b. unfold m3_det, m3_mul, m3_new. m3cbn. ring. Qed.
Lemma d4 (a b : Matrix4x4 S) : det4 (m4_mul a b) = det4 a * det4 b.
Proof. destruct a, b. unfold det4, adj4, m4_mul, m4_new. m4cbn. ring. Qed.
Lemma d3_id : m3_det (m3_identity : Matrix3x3 S) = sone.
Proof. unfold m3_det, m3_identity, m3_new. m3cbn. ring. Qed.
Lemma d4_id : det4 (m4_identity : Matrix4x4 S) = sone.
Proof. unfold det4, adj4, m4_identity, m4_new. m4cbn. ring. Qed.
Lemma inv_unit3 (m : Matrix3x3 S) : Invertible3 m -> Unit (m3_det m).
Proof. intros [n H]. apply (unit_fst _ (m3_det n)). rewrite <- d3, H, d3_id. exists sone. ring. Qed.
Lemma inv_unit4 (m : Matrix4x4 S) : Invertible4 m -> Unit (det4 m).
Proof. intros [n H]. apply (unit_fst _ (det4 n)). rewrite <- d4, H, d4_id. exists sone. ring. Qed.
(* the inverse *)
Lemma m3_inverse_ok (m : Matrix3x3 S) : Unit (m3_det m) -> exists i, m3_inverse m = Ok i /\ m3_mul m i = m3_identity /\ m3_mul i m = m3_identity.
Proof.
  destruct m as [m0 m1 m2 m3 m4 m5 m6 m7 m8]. intros U. unfold m3_inverse. cbv zeta. rewrite (dl_nonzero DL _ U). cbn [negb]. destruct U as [z Z]. eexists. split; [reflexivity|]. unfold m3_mul, m3_identity, m3_new. m3cbn. rewrite !(unit_div _ _ _ Z).
  split; try apply mk3_eq; match goal with |- _ = szero => ring | |- _ = sone => refine (eq_trans _ Z); unfold m3_det; m3cbn; ring end.
Qed.
Lemma m4_inverse_ok prof (m : Matrix4x4 S) : Unit (det4 m) -> exists i, m4_inverse prof m = Ret (Ok i) /\ m4_mul m i = m4_identity /\ m4_mul i m = m4_identity.
Proof.
  destruct m as [m0 m1 m2 m3 m4 m5 m6 m7 m8 m9 m10 m11 m12 m13 m14 m15]. intros U. rewrite m4_inverse_closed. rewrite (dl_nonzero DL _ U). cbn [negb]. destruct U as [z Z]. eexists. split; [reflexivity|]. unfold m4_divs, m4_map, m4_new, m4_mul, m4_identity, m4_new. m4cbn. rewrite !(unit_div _ _ _ Z).
  unfold det4 in Z. unfold adj4 in *. revert Z. m4cbn. intros Z.
  split; try apply mk4_eq; match goal with |- _ = szero => ring | |- _ = sone => refine (eq_trans _ Z); ring end.
Qed.
Lemma inv_unique3 (a b c : Matrix3x3 S) : m3_mul b a = m3_identity -> m3_mul a c = m3_identity -> b = c.
Proof. intros H K. rewrite <- (m3_id_r b), <- K, m3_assoc, H. apply m3_id_l. Qed.
Lemma inv_unique4 (a b c : Matrix4x4 S) : m4_mul b a = m4_identity -> m4_mul a c = m4_identity -> b = c.
Proof. intros H K. rewrite <- (m4_id_r b), <- K, m4_assoc, H. apply m4_id_l. Qed.
(* affine matrices *)
Lemma aff3_mul (a b : Matrix3x3 S) : AffineS3 a -> AffineS3 b -> AffineS3 (m3_mul a b).
Proof. destruct a, b. intros (A1 & A2 & A3) (B1 & B2 & B3). unfold AffineS3, m3_mul, m3_new in *. revert A1 A2 A3 B1 B2 B3. m3cbn. intros A1 A2 A3 B1 B2 B3. rewrite A1, A2, A3, B1, B2, B3. repeat split; ring. Qed.
Lemma aff4_mul (a b : Matrix4x4 S) : AffineS4 a -> AffineS4 b -> AffineS4 (m4_mul a b).
Proof. destruct a, b. intros (A1 & A2 & A3 & A4) (B1 & B2 & B3 & B4). unfold AffineS4, m4_mul, m4_new in *. revert A1 A2 A3 A4 B1 B2 B3 B4. m4cbn. intros A1 A2 A3 A4 B1 B2 B3 B4. rewrite A1, A2, A3, A4, B1, B2, B3, B4. repeat split; ring. Qed.
Lemma aff3_inv (m i : Matrix3x3 S) : AffineS3 m -> m3_mul i m = m3_identity -> m3_mul m i = m3_identity -> AffineS3 i.
Proof.
  intros (A1 & A2 & A3) _ H. unfold m3_mul, m3_identity, m3_new in H. rewrite A1, A2, A3 in H. injection H. intros H8 H7 H6 _ _ _ _ _ _. unfold AffineS3. split; [refine (eq_trans _ H6); ring|]. split; [refine (eq_trans _ H7); ring|]. refine (eq_trans _ H8); ring.
Qed.
Lemma aff4_inv (m i : Matrix4x4 S) : AffineS4 m -> m4_mul i m = m4_identity -> m4_mul m i = m4_identity -> AffineS4 i.
Proof.
  intros (A1 & A2 & A3 & A4) _ H. unfold m4_mul, m4_identity, m4_new in H. rewrite A1, A2, A3, A4 in H. injection H. intros H8 H7 H6 H5 _ _ _ _ _ _ _ _ _ _ _ _. unfold AffineS4. split; [refine (eq_trans _ H5); ring|]. split; [refine (eq_trans _ H6); ring|]. split; [refine (eq_trans _ H7); ring|]. refine (eq_trans _ H8); ring.
Qed.
(* points and vectors *)
Lemma mp3 (m : Matrix3x3 S) p : AffineS3 m -> m3_mul_point m p = mkPoint2 (m3_0 m * p2x p + m3_1 m * p2y p + m3_2 m) (m3_3 m * p2x p + m3_4 m * p2y p + m3_5 m).
Proof. intros (A1 & A2 & A3). unfold m3_mul_point. cbv zeta. rewrite A1, A2, A3. replace (szero * p2x p + szero * p2y p + sone) with (sone : S) by ring. rewrite !div_1. reflexivity. Qed.
Lemma mp4 (m : Matrix4x4 S) p : AffineS4 m -> m4_mul_point m p = mkPoint3 (m4_0 m * p3x p + m4_1 m * p3y p + m4_2 m * p3z p + m4_3 m) (m4_4 m * p3x p + m4_5 m * p3y p + m4_6 m * p3z p + m4_7 m) (m4_8 m * p3x p + m4_9 m * p3y p + m4_10 m * p3z p + m4_11 m).
Proof. intros (A1 & A2 & A3 & A4). unfold m4_mul_point. cbv zeta. rewrite A1, A2, A3, A4. replace (szero * p3x p + szero * p3y p + szero * p3z p + sone) with (sone : S) by ring. rewrite !div_1. reflexivity. Qed.
Lemma mulp3 (a b : Matrix3x3 S) p : AffineS3 a -> AffineS3 b -> m3_mul_point (m3_mul a b) p = m3_mul_point a (m3_mul_point b p).
Proof. intros A B. rewrite !mp3 by (try apply aff3_mul; assumption). destruct B as (B1 & B2 & B3). unfold m3_mul, m3_new. m3cbn. cbn [p2x p2y]. rewrite B1, B2, B3. f_equal; ring. Qed.
Lemma mulp4 (a b : Matrix4x4 S) p : AffineS4 a -> AffineS4 b -> m4_mul_point (m4_mul a b) p = m4_mul_point a (m4_mul_point b p).
Proof. intros A B. rewrite !mp4 by (try apply aff4_mul; assumption). destruct B as (B1 & B2 & B3 & B4). unfold m4_mul, m4_new. m4cbn. cbn [p3x p3y p3z]. rewrite B1, B2, B3, B4. f_equal; ring. Qed.
Lemma mulv3 (a b : Matrix3x3 S) v : AffineS3 b -> m3_mul_vector (m3_mul a b) v = m3_mul_vector a (m3_mul_vector b v).
Proof. intros (B1 & B2 & B3). unfold m3_mul_vector, m3_mul, m3_new, v2_new. m3cbn. cbn [v2x v2y]. rewrite B1, B2. f_equal; ring. Qed.
Lemma mulv4 (a b : Matrix4x4 S) v : AffineS4 b -> m4_mul_vector (m4_mul a b) v = m4_mul_vector a (m4_mul_vector b v).
Proof. intros (B1 & B2 & B3 & B4). unfold m4_mul_vector, m4_mul, m4_new, v3_new. m4cbn. cbn [v3x v3y v3z]. rewrite B1, B2, B3. f_equal; ring. Qed.
Lemma aff3_id : AffineS3 (m3_identity : Matrix3x3 S). Proof. repeat split. Qed.
Lemma aff4_id : AffineS4 (m4_identity : Matrix4x4 S). Proof. repeat split. Qed.
Lemma idp3 (p : Point2 S) : m3_mul_point m3_identity p = p.
Proof. rewrite mp3 by apply aff3_id. destruct p as [px py]. unfold m3_identity, m3_new. m3cbn. cbn [p2x p2y]. f_equal; ring. Qed.
Lemma idp4 (p : Point3 S) : m4_mul_point m4_identity p = p.
Proof. rewrite mp4 by apply aff4_id. destruct p as [px py pz]. unfold m4_identity, m4_new. m4cbn. cbn [p3x p3y p3z]. f_equal; ring. Qed.
Lemma idv3 (p : Vector2 S) : m3_mul_vector m3_identity p = p.
Proof. destruct p as [px py]. unfold m3_mul_vector, m3_identity, m3_new, v2_new. m3cbn. cbn [v2x v2y]. f_equal; ring. Qed.
Lemma idv4 (p : Vector3 S) : m4_mul_vector m4_identity p = p.
Proof. destruct p as [px py pz]. unfold m4_mul_vector, m4_identity, m4_new, v3_new. m4cbn. cbn [v3x v3y v3z]. f_equal; ring. Qed.
(* good transforms *)
Definition good2 (t : Transform2 S) : Prop := AffineS3 (t2_forward t) /\ AffineS3 (t2_inv t) /\ m3_mul (t2_forward t) (t2_inv t) = m3_identity /\ m3_mul (t2_inv t) (t2_forward t) = m3_identity.
Definition good3 (t : Transform3 S) : Prop := AffineS4 (t3_forward t) /\ AffineS4 (t3_inv t) /\ m4_mul (t3_forward t) (t3_inv t) = m4_identity /\ m4_mul (t3_inv t) (t3_forward t) = m4_identity.
Lemma good2_and t n : good2 t -> good2 n -> good2 (t2_and_then t n).
Proof.
  intros (A & B & C & D) (A' & B' & C' & D'). unfold good2, t2_and_then, t2_new. cbn [t2_forward t2_inv]. repeat split; try (apply aff3_mul; assumption).
  - rewrite <- m3_assoc, (m3_assoc (t2_forward t)), C, m3_id_l. exact C'.
  - rewrite <- m3_assoc, (m3_assoc (t2_inv n)), D', m3_id_l. exact D.
Qed.
Lemma good3_and t n : good3 t -> good3 n -> good3 (t3_and_then t n).
Proof.
  intros (A & B & C & D) (A' & B' & C' & D'). unfold good3, t3_and_then, t3_new. cbn [t3_forward t3_inv]. repeat split; try (apply aff4_mul; assumption).
  - rewrite <- m4_assoc, (m4_assoc (t3_forward t)), C, m4_id_l. exact C'.
  - rewrite <- m4_assoc, (m4_assoc (t3_inv n)), D', m4_id_l. exact D.
Qed.
Lemma good2_inv t : good2 t -> good2 (t2_inverse t).
Proof. intros (A & B & C & D). repeat split; cbn [t2_inverse t2_forward t2_inv t2_new]; apply A || apply B || assumption. Qed.
Lemma good3_inv t : good3 t -> good3 (t3_inverse t).
Proof. intros (A & B & C & D). repeat split; cbn [t3_inverse t3_forward t3_inv t3_new]; apply A || apply B || assumption. Qed.
Context (TL : TrigLaw S).
Lemma trig a : exists s c, ssin_cos a = (s, c) /\ s * s + c * c = sone.
Proof. specialize (TL a). destruct (ssin_cos a) as [s c]. exists s, c. split; [reflexivity | exact TL]. Qed.
Lemma made2_good t : Made2 t -> good2 t.
Proof.
  induction 1 as [|v|a|sx sy Ux Uy|s Us|m t E Am Im|t n _ IHt _ IHn|t _ IHt].
  - unfold good2, t2_identity, t2_new. cbn [t2_forward t2_inv]. split; [apply aff3_id|]. split; [apply aff3_id|]. split; apply m3_id_l.
  - unfold good2, t2_translate, t2_new. cbn [t2_forward t2_inv]. unfold m3_translate, v2_neg, v2_new, AffineS3, m3_mul, m3_identity, m3_new. m3cbn. cbn [v2x v2y]. repeat split; try apply mk3_eq; ring.
  - unfold good2, t2_rotate, t2_new. cbn [t2_forward t2_inv]. unfold m3_rotate. destruct (trig a) as (s & c & -> & T). unfold AffineS3, m3_transpose, m3_mul, m3_identity, m3_new. m3cbn. repeat split; try apply mk3_eq; first [ring | refine (eq_trans _ T); ring].
  - unfold good2, t2_scale, t2_new. cbn [t2_forward t2_inv]. pose proof (recip_r _ Ux) as X. pose proof (recip_r _ Uy) as Y. unfold AffineS3, m3_scale, m3_mul, m3_identity, m3_new. m3cbn. repeat split; try apply mk3_eq; first [ring | refine (eq_trans _ X); ring | refine (eq_trans _ Y); ring].
  - unfold good2, t2_scale_uniform, t2_new. cbn [t2_forward t2_inv]. pose proof (recip_r _ Us) as X. unfold AffineS3, m3_scale_uniform, m3_mul, m3_identity, m3_new. m3cbn. repeat split; try apply mk3_eq; first [ring | refine (eq_trans _ X); ring].
  - destruct (m3_inverse_ok m (inv_unit3 m Im)) as (i & Ei & H1 & H2). unfold t2_try_from in E. rewrite Ei in E. injection E. intros <-. unfold good2, t2_new. cbn [t2_forward t2_inv]. split; [exact Am|]. split; [exact (aff3_inv m i Am H2 H1)|]. now split.
  - now apply good2_and.
  - now apply good2_inv.
Qed.
Ltac g3 := unfold good3, t3_new; cbn [t3_forward t3_inv].
Lemma axis_unit (v : Vector3 S) : v3_length v * v3_length v = v3_dot v v -> Unit (v3_length v) -> exists x y z, v3_normalize v = mkVector3 x y z /\ x * x + y * y + z * z = sone.
Proof.
  intros L [w W]. unfold v3_normalize, v3_div, v3_new. rewrite !(unit_div _ _ _ W). do 3 eexists. split; [reflexivity|].
  transitivity (v3_dot v v * (w * w)); [unfold v3_dot; ring|]. rewrite <- L. transitivity ((v3_length v * w) * (v3_length v * w)); [ring | rewrite W; ring].
Qed.
Lemma made3_good t : Made3 t -> good3 t.
Proof.
  induction 1 as [|v|a|a|a|v a [L U]|sx sy sz Ux Uy Uz|s Us|prof m t E Am Im|t n _ IHt _ IHn|t _ IHt].
  - unfold t3_identity. g3. split; [apply aff4_id|]. split; [apply aff4_id|]. split; apply m4_id_l.
  - unfold t3_translate. g3. unfold m4_translate, v3_neg, v3_new, AffineS4, m4_mul, m4_identity, m4_new. m4cbn. cbn [v3x v3y v3z]. repeat split; try apply mk4_eq; ring.
  - unfold t3_rotate_x. g3. unfold m4_rotate_x. destruct (trig a) as (s & c & -> & T). unfold AffineS4, m4_transpose, m4_mul, m4_identity, m4_new. m4cbn. repeat split; try apply mk4_eq; first [ring | refine (eq_trans _ T); ring].
  - unfold t3_rotate_y. g3. unfold m4_rotate_y. destruct (trig a) as (s & c & -> & T). unfold AffineS4, m4_transpose, m4_mul, m4_identity, m4_new. m4cbn. repeat split; try apply mk4_eq; first [ring | refine (eq_trans _ T); ring].
  - unfold t3_rotate_z. g3. unfold m4_rotate_z. destruct (trig a) as (s & c & -> & T). unfold AffineS4, m4_transpose, m4_mul, m4_identity, m4_new. m4cbn. repeat split; try apply mk4_eq; first [ring | refine (eq_trans _ T); ring].
  - unfold t3_rotate_axis. g3. unfold m4_rotate_axis. destruct (axis_unit v L U) as (x & y & z & -> & N). destruct (trig a) as (s & c & -> & T). unfold AffineS4, m4_transpose, m4_mul, m4_identity, m4_new. m4cbn. cbn [v3x v3y v3z].
    assert (TT : s * s = sone - c * c) by (rewrite <- T; ring). assert (NN : z * z = sone - x * x - y * y) by (rewrite <- N; ring). clear T N.
    repeat split; try reflexivity; try apply mk4_eq; ring [TT NN].
  - unfold t3_scale. g3. pose proof (recip_r _ Ux) as X. pose proof (recip_r _ Uy) as Y. pose proof (recip_r _ Uz) as Z. unfold AffineS4, m4_scale, m4_mul, m4_identity, m4_new. m4cbn. repeat split; try apply mk4_eq; first [ring | refine (eq_trans _ X); ring | refine (eq_trans _ Y); ring | refine (eq_trans _ Z); ring].
  - unfold t3_scale_uniform. g3. pose proof (recip_r _ Us) as X. unfold AffineS4, m4_scale_uniform, m4_mul, m4_identity, m4_new. m4cbn. repeat split; try apply mk4_eq; first [ring | refine (eq_trans _ X); ring].
  - destruct (m4_inverse_ok prof m (inv_unit4 m Im)) as (i & Ei & H1 & H2). unfold t3_try_from in E. rewrite Ei in E. cbn in E. injection E. intros <-. g3. split; [exact Am|]. split; [exact (aff4_inv m i Am H2 H1)|]. now split.
  - now apply good3_and.
  - now apply good3_inv.
Qed.
End R.
Section Cam.
Context {S : Type} {O : ScalarOps S}.
Context (RT : ring_theory szero sone sadd smul ssub sneg (eq (A:=S))) (DL : DivLaws S).
Add Ring Sr2 : RT.
Local Open Scope s_scope.
Lemma frame_unit (r1 r2 r3 d1 d2 d3 f1 f2 f3 : S) : r1 * r1 + r2 * r2 + r3 * r3 = sone -> d1 * d1 + d2 * d2 + d3 * d3 = sone -> r1 * d1 + r2 * d2 + r3 * d3 = szero ->
  Unit (det4 (m4_new r1 (d2 * r3 - d3 * r2) d1 f1 r2 (d3 * r1 - d1 * r3) d2 f2 r3 (d1 * r2 - d2 * r1) d3 f3 szero szero szero sone)).
Proof.
  intros R D P. exists (det4 (m4_new r1 (d2 * r3 - d3 * r2) d1 f1 r2 (d3 * r1 - d1 * r3) d2 f2 r3 (d1 * r2 - d2 * r1) d3 f3 szero szero szero sone)).
  transitivity (((r1 * r1 + r2 * r2 + r3 * r3) * (d1 * d1 + d2 * d2 + d3 * d3) - (r1 * d1 + r2 * d2 + r3 * d3) * (r1 * d1 + r2 * d2 + r3 * d3)) * ((r1 * r1 + r2 * r2 + r3 * r3) * (d1 * d1 + d2 * d2 + d3 * d3) - (r1 * d1 + r2 * d2 + r3 * d3) * (r1 * d1 + r2 * d2 + r3 * d3))).
  - unfold det4, adj4, m4_new. m4cbn. ring.
  - rewrite R, D, P. ring.
Qed.
Lemma unit_vec (v : Vector3 S) : v3_length v * v3_length v = v3_dot v v -> Unit (v3_length v) -> let n := v3_normalize v in v3x n * v3x n + v3y n * v3y n + v3z n * v3z n = sone.
Proof. intros L U. destruct (axis_unit RT DL v L U) as (x & y & z & -> & N). exact N. Qed.
Lemma look_ok prof (from target : Point3 S) (up : Vector3 S) : let d := v3_normalize (p3_sub target from) in let c := v3_cross (v3_normalize up) d in
  Normalizable (p3_sub target from) -> Normalizable c ->
  exists t, t3_look_at prof from target up = Ret (Ok t) /\ good3 t /\ t3_transform_point t from = p3_origin /\ t3_transform_vector t d = v3_z_axis.
Proof.
  intros d c [L1 U1] [L2 U2]. pose proof (unit_vec _ L1 U1) as D. fold d in D. pose proof (unit_vec _ L2 U2) as R. cbv zeta in D, R. destruct U2 as [w W].
  assert (P : v3x (v3_normalize c) * v3x d + v3y (v3_normalize c) * v3y d + v3z (v3_normalize c) * v3z d = szero).
  { unfold v3_normalize at 1 2 3. unfold v3_div, v3_new. cbn [v3x v3y v3z]. rewrite !(unit_div RT DL _ _ _ W). unfold c, v3_cross, v3_new. cbn [v3x v3y v3z]. ring. }
  set (M := m4_inverse_look_at from target up).
  assert (U : Unit (det4 M)) by exact (frame_unit _ _ _ _ _ _ (p3x from) (p3y from) (p3z from) R D P).
  assert (AM : AffineS4 M) by (repeat split).
  destruct (m4_inverse_ok RT DL prof M U) as (i & E & H1 & H2). exists (t3_new i M). split; [unfold t3_look_at; fold M; rewrite E; reflexivity|].
  assert (AI : AffineS4 i) by exact (aff4_inv RT M i AM H2 H1).
  split; [repeat split; try apply AI; assumption|]. split.
  - unfold t3_transform_point, t3_new. cbn [t3_forward]. rewrite <- (idp4 RT DL p3_origin), <- H2, (mulp4 RT DL) by assumption. f_equal. rewrite (mp4 RT DL) by exact AM. unfold p3_origin, p3_new. cbn [p3x p3y p3z]. destruct from as [fx fy fz]. unfold M, m4_inverse_look_at, m4_new. cbn [m4_0 m4_1 m4_2 m4_3 m4_4 m4_5 m4_6 m4_7 m4_8 m4_9 m4_10 m4_11 p3x p3y p3z]. f_equal; ring.
  - unfold t3_transform_vector, t3_new. cbn [t3_forward]. rewrite <- (idv4 RT v3_z_axis), <- H2, (mulv4 RT) by assumption. f_equal. unfold m4_mul_vector, M, m4_inverse_look_at, m4_new. fold d. destruct d as [dx dy dz]. unfold v3_z_axis, v3_new. cbn [v3x v3y v3z m4_0 m4_1 m4_2 m4_4 m4_5 m4_6 m4_8 m4_9 m4_10]. f_equal; ring.
Qed.
End Cam.
Section Vec2.
Context {S : Type} {O : ScalarOps S}.
Context (RT : ring_theory szero sone sadd smul ssub sneg (eq (A:=S))).
Add Ring Sv2 : RT.
Local Open Scope s_scope.
Lemma mkve_2 (e1 e2 f1 f2 : S) : e1 = f1 -> e2 = f2 -> mkVector2 e1 e2 = mkVector2 f1 f2.
Proof. intros; subst; reflexivity. Qed.
Lemma mkpe_2 (e1 e2 f1 f2 : S) : e1 = f1 -> e2 = f2 -> mkPoint2 e1 e2 = mkPoint2 f1 f2.
Proof. intros; subst; reflexivity. Qed.
Lemma vec2 (a b c : Vector2 S) (p q : Point2 S) (s r : S) :
  v2_dot a b = v2_dot b a /\ v2_dot (v2_add a b) c = v2_dot a c + v2_dot b c /\ v2_dot (v2_mul a s) b = s * v2_dot a b /\
  v2_add a b = v2_add b a /\ v2_add (v2_add a b) c = v2_add a (v2_add b c) /\ v2_sub (v2_add a b) b = a /\ v2_add a (v2_neg a) = v2_zero /\
  v2_mul (v2_add a b) s = v2_add (v2_mul a s) (v2_mul b s) /\ v2_mul a (s + r) = v2_add (v2_mul a s) (v2_mul a r) /\ v2_mul (v2_mul a s) r = v2_mul a (s * r) /\
  p2_add p (p2_sub q p) = q /\ p2_sub (p2_add p a) p = a /\ p2_add (p2_add p a) b = p2_add p (v2_add a b) /\ p2_sub_v (p2_add p a) a = p.
Proof.
  destruct a as [a1 a2], b as [b1 b2], c as [c1 c2], p as [p1 p2], q as [q1 q2]. cbv [v2_dot v2_add v2_sub v2_mul v2_neg v2_zero v2_new p2_add p2_sub p2_sub_v p2_new v2x v2y  p2x p2y].
  repeat match goal with |- _ /\ _ => split end; first [ring | apply mkve_2; ring | apply mkpe_2; ring].
Qed.
End Vec2.
Section Vec3.
Context {S : Type} {O : ScalarOps S}.
Context (RT : ring_theory szero sone sadd smul ssub sneg (eq (A:=S))).
Add Ring Sv3 : RT.
Local Open Scope s_scope.
Lemma mkve_3 (e1 e2 e3 f1 f2 f3 : S) : e1 = f1 -> e2 = f2 -> e3 = f3 -> mkVector3 e1 e2 e3 = mkVector3 f1 f2 f3.
Proof. intros; subst; reflexivity. Qed.
Lemma mkpe_3 (e1 e2 e3 f1 f2 f3 : S) : e1 = f1 -> e2 = f2 -> e3 = f3 -> mkPoint3 e1 e2 e3 = mkPoint3 f1 f2 f3.
Proof. intros; subst; reflexivity. Qed.
Lemma vec3 (a b c : Vector3 S) (p q : Point3 S) (s r : S) :
  v3_dot a b = v3_dot b a /\ v3_dot (v3_add a b) c = v3_dot a c + v3_dot b c /\ v3_dot (v3_mul a s) b = s * v3_dot a b /\
  v3_add a b = v3_add b a /\ v3_add (v3_add a b) c = v3_add a (v3_add b c) /\ v3_sub (v3_add a b) b = a /\ v3_add a (v3_neg a) = v3_zero /\
  v3_mul (v3_add a b) s = v3_add (v3_mul a s) (v3_mul b s) /\ v3_mul a (s + r) = v3_add (v3_mul a s) (v3_mul a r) /\ v3_mul (v3_mul a s) r = v3_mul a (s * r) /\
  p3_add p (p3_sub q p) = q /\ p3_sub (p3_add p a) p = a /\ p3_add (p3_add p a) b = p3_add p (v3_add a b) /\ p3_sub_v (p3_add p a) a = p.
Proof.
  destruct a as [a1 a2 a3], b as [b1 b2 b3], c as [c1 c2 c3], p as [p1 p2 p3], q as [q1 q2 q3]. cbv [v3_dot v3_add v3_sub v3_mul v3_neg v3_zero v3_new p3_add p3_sub p3_sub_v p3_new v3x v3y v3z p3z p3x p3y].
  repeat match goal with |- _ /\ _ => split end; first [ring | apply mkve_3; ring | apply mkpe_3; ring].
Qed.
End Vec3.
Section VecC.
Context {S : Type} {O : ScalarOps S}.
Context (RT : ring_theory szero sone sadd smul ssub sneg (eq (A:=S))) (DL : DivLaws S).
Add Ring Svc : RT.
Local Open Scope s_scope.
Lemma cross_laws (a b c : Vector3 S) (s : S) :
  v3_cross a b = v3_neg (v3_cross b a) /\ v3_dot a (v3_cross a b) = szero /\ v3_dot b (v3_cross a b) = szero /\ v3_cross a a = v3_zero /\
  v3_cross (v3_add a b) c = v3_add (v3_cross a c) (v3_cross b c) /\ v3_cross (v3_mul a s) b = v3_mul (v3_cross a b) s /\
  v3_dot (v3_cross a b) (v3_cross a b) = v3_dot a a * v3_dot b b - v3_dot a b * v3_dot a b /\
  v3_dot a (v3_cross b c) = v3_dot b (v3_cross c a) /\
  v3_add (v3_add (v3_cross a (v3_cross b c)) (v3_cross b (v3_cross c a))) (v3_cross c (v3_cross a b)) = v3_zero.
Proof.
  destruct a as [a1 a2 a3], b as [b1 b2 b3], c as [c1 c2 c3]. cbv [v3_dot v3_cross v3_add v3_mul v3_neg v3_zero v3_new v3x v3y v3z].
  repeat match goal with |- _ /\ _ => split end; first [ring | apply mkve_3; ring].
Qed.
Lemma mp3_add (m : Matrix3x3 S) p v : AffineS3 m -> m3_mul_point m (p2_add p v) = p2_add (m3_mul_point m p) (m3_mul_vector m v).
Proof. intros A. rewrite !(mp3 RT DL) by exact A. unfold p2_add, p2_new, m3_mul_vector, v2_new. cbn [p2x p2y v2x v2y]. apply mkpe_2; ring. Qed.
Lemma mp4_add (m : Matrix4x4 S) p v : AffineS4 m -> m4_mul_point m (p3_add p v) = p3_add (m4_mul_point m p) (m4_mul_vector m v).
Proof. intros A. rewrite !(mp4 RT DL) by exact A. unfold p3_add, p3_new, m4_mul_vector, v3_new. cbn [p3x p3y p3z v3x v3y v3z]. apply mkpe_3; ring. Qed.
Lemma mv3_mul (m : Matrix3x3 S) v s : m3_mul_vector m (v2_mul v s) = v2_mul (m3_mul_vector m v) s.
Proof. unfold m3_mul_vector, v2_mul, v2_new. cbn [v2x v2y]. apply mkve_2; ring. Qed.
Lemma mv4_mul (m : Matrix4x4 S) v s : m4_mul_vector m (v3_mul v s) = v3_mul (m4_mul_vector m v) s.
Proof. unfold m4_mul_vector, v3_mul, v3_new. cbn [v3x v3y v3z]. apply mkve_3; ring. Qed.
Lemma mv3_add (m : Matrix3x3 S) v w : m3_mul_vector m (v2_add v w) = v2_add (m3_mul_vector m v) (m3_mul_vector m w).
Proof. unfold m3_mul_vector, v2_add, v2_new. cbn [v2x v2y]. apply mkve_2; ring. Qed.
Lemma mv4_add (m : Matrix4x4 S) v w : m4_mul_vector m (v3_add v w) = v3_add (m4_mul_vector m v) (m4_mul_vector m w).
Proof. unfold m4_mul_vector, v3_add, v3_new. cbn [v3x v3y v3z]. apply mkve_3; ring. Qed.
End VecC.
Lemma C100_vectors_2d_pf : forall (S : Type) (O : ScalarOps S), RingLaws S -> forall (a b c : Vector2 S) (p q : Point2 S) (s r : S),
  v2_dot a b = v2_dot b a /\ v2_dot (v2_add a b) c = sadd (v2_dot a c) (v2_dot b c) /\ v2_dot (v2_mul a s) b = smul s (v2_dot a b) /\
  v2_add a b = v2_add b a /\ v2_add (v2_add a b) c = v2_add a (v2_add b c) /\ v2_sub (v2_add a b) b = a /\ v2_add a (v2_neg a) = v2_zero /\
  v2_mul (v2_add a b) s = v2_add (v2_mul a s) (v2_mul b s) /\ v2_mul a (sadd s r) = v2_add (v2_mul a s) (v2_mul a r) /\ v2_mul (v2_mul a s) r = v2_mul a (smul s r) /\
  p2_add p (p2_sub q p) = q /\ p2_sub (p2_add p a) p = a /\ p2_add (p2_add p a) b = p2_add p (v2_add a b) /\ p2_sub_v (p2_add p a) a = p.
Proof.
  intros S O H. exact (vec2 (ring_of H)).
Qed.
Lemma C100_vectors_3d_pf : forall (S : Type) (O : ScalarOps S), RingLaws S -> forall (a b c : Vector3 S) (p q : Point3 S) (s r : S),
  v3_dot a b = v3_dot b a /\ v3_dot (v3_add a b) c = sadd (v3_dot a c) (v3_dot b c) /\ v3_dot (v3_mul a s) b = smul s (v3_dot a b) /\
  v3_add a b = v3_add b a /\ v3_add (v3_add a b) c = v3_add a (v3_add b c) /\ v3_sub (v3_add a b) b = a /\ v3_add a (v3_neg a) = v3_zero /\
  v3_mul (v3_add a b) s = v3_add (v3_mul a s) (v3_mul b s) /\ v3_mul a (sadd s r) = v3_add (v3_mul a s) (v3_mul a r) /\ v3_mul (v3_mul a s) r = v3_mul a (smul s r) /\
  p3_add p (p3_sub q p) = q /\ p3_sub (p3_add p a) p = a /\ p3_add (p3_add p a) b = p3_add p (v3_add a b) /\ p3_sub_v (p3_add p a) a = p.
Proof.
  intros S O H. exact (vec3 (ring_of H)).
Qed.
Lemma C100_cross_pf : forall (S : Type) (O : ScalarOps S), RingLaws S -> forall (a b c : Vector3 S) (s : S),
  v3_cross a b = v3_neg (v3_cross b a) /\ v3_dot a (v3_cross a b) = szero /\ v3_dot b (v3_cross a b) = szero /\ v3_cross a a = v3_zero /\
  v3_cross (v3_add a b) c = v3_add (v3_cross a c) (v3_cross b c) /\ v3_cross (v3_mul a s) b = v3_mul (v3_cross a b) s /\
  v3_dot (v3_cross a b) (v3_cross a b) = ssub (smul (v3_dot a a) (v3_dot b b)) (smul (v3_dot a b) (v3_dot a b)) /\
  v3_dot a (v3_cross b c) = v3_dot b (v3_cross c a) /\
  v3_add (v3_add (v3_cross a (v3_cross b c)) (v3_cross b (v3_cross c a))) (v3_cross c (v3_cross a b)) = v3_zero.
Proof.
  intros S O H. exact (cross_laws (ring_of H)).
Qed.
Lemma C100_matrix_product_2d_pf : forall (S : Type) (O : ScalarOps S), RingLaws S -> forall a b c : Matrix3x3 S,
  m3_mul a (m3_mul b c) = m3_mul (m3_mul a b) c /\ m3_mul m3_identity a = a /\ m3_mul a m3_identity = a /\
  m3_transpose (m3_mul a b) = m3_mul (m3_transpose b) (m3_transpose a) /\ m3_transpose (m3_transpose a) = a.
Proof.
  intros S O H a b c. repeat split; [apply (m3_assoc (ring_of H)) | apply (m3_id_l (ring_of H)) | apply (m3_id_r (ring_of H)) | apply (m3_tr_mul (ring_of H)) | destruct a; reflexivity].
Qed.
Lemma C100_matrix_product_3d_pf : forall (S : Type) (O : ScalarOps S), RingLaws S -> forall a b c : Matrix4x4 S,
  m4_mul a (m4_mul b c) = m4_mul (m4_mul a b) c /\ m4_mul m4_identity a = a /\ m4_mul a m4_identity = a /\
  m4_transpose (m4_mul a b) = m4_mul (m4_transpose b) (m4_transpose a) /\ m4_transpose (m4_transpose a) = a.
Proof.
  intros S O H a b c. repeat split; [apply (m4_assoc (ring_of H)) | apply (m4_id_l (ring_of H)) | apply (m4_id_r (ring_of H)) | apply (m4_tr_mul (ring_of H)) | destruct a; reflexivity].
Qed.
Lemma C100_inverse_3x3_pf : forall (S : Type) (O : ScalarOps S), RingLaws S -> DivLaws S -> forall m n : Matrix3x3 S, m3_mul m n = m3_identity ->
  m3_inverse m = Ok n /\ m3_mul n m = m3_identity.
Proof.
  intros S O H DL m n E. destruct (m3_inverse_ok (ring_of H) DL m (inv_unit3 (ring_of H) m (ex_intro _ n E))) as (i & Ei & H1 & H2). rewrite <- (inv_unique3 (ring_of H) m i n H2 E). now split.
Qed.
Lemma C100_inverse_4x4_pf : forall (S : Type) (O : ScalarOps S), RingLaws S -> DivLaws S -> forall (prof : profile) (m n : Matrix4x4 S), m4_mul m n = m4_identity ->
  m4_inverse prof m = Ret (Ok n) /\ m4_mul n m = m4_identity.
Proof.
  intros S O H DL prof m n E. destruct (m4_inverse_ok (ring_of H) DL prof m (inv_unit4 (ring_of H) m (ex_intro _ n E))) as (i & Ei & H1 & H2). rewrite <- (inv_unique4 (ring_of H) m i n H2 E). now split.
Qed.
Lemma C100_transforms_2d_pf : forall (S : Type) (O : ScalarOps S), RingLaws S -> DivLaws S -> TrigLaw S -> forall t n : Transform2 S, Made2 t -> Made2 n ->
  forall (p : Point2 S) (v w : Vector2 S) (s : S),
  (* the inverse undoes *)
  t2_transform_point (t2_inverse t) (t2_transform_point t p) = p /\ t2_transform_point t (t2_transform_point (t2_inverse t) p) = p /\
  t2_transform_vector (t2_inverse t) (t2_transform_vector t v) = v /\ t2_transform_vector t (t2_transform_vector (t2_inverse t) v) = v /\
  (* and_then composes; its inverse composes the inverses in the opposite order *)
  t2_transform_point (t2_and_then t n) p = t2_transform_point n (t2_transform_point t p) /\
  t2_transform_vector (t2_and_then t n) v = t2_transform_vector n (t2_transform_vector t v) /\
  t2_inverse (t2_and_then t n) = t2_and_then (t2_inverse n) (t2_inverse t) /\
  (* transforms respect sums, multiples and rays *)
  t2_transform_point t (p2_add p v) = p2_add (t2_transform_point t p) (t2_transform_vector t v) /\
  t2_transform_vector t (v2_add v w) = v2_add (t2_transform_vector t v) (t2_transform_vector t w) /\
  t2_transform_vector t (v2_mul v s) = v2_mul (t2_transform_vector t v) s /\
  r2_at (t2_transform_ray t (r2_new p v)) s = t2_transform_point t (r2_at (r2_new p v) s).
Proof.
  intros S O H DL TL t n T N p v w s. pose proof (ring_of H) as RT. destruct (made2_good RT DL TL t T) as (A & B & C & D), (made2_good RT DL TL n N) as (A' & B' & C' & D').
  unfold t2_transform_ray, r2_at, r2_new, t2_transform_point, t2_transform_vector, t2_inverse, t2_and_then, t2_new. cbn [t2_forward t2_inv r2_origin r2_direction].
  rewrite <- !(mulp3 RT DL), <- !(mulv3 RT), !C, !D, !(idp3 RT DL), !(idv3 RT), !(mp3_add RT DL), !(mv3_add RT), !(mv3_mul RT) by assumption. repeat split.
Qed.
Lemma C100_transforms_3d_pf : forall (S : Type) (O : ScalarOps S), RingLaws S -> DivLaws S -> TrigLaw S -> forall t n : Transform3 S, Made3 t -> Made3 n ->
  forall (p : Point3 S) (v w : Vector3 S) (s : S),
  (* the inverse undoes *)
  t3_transform_point (t3_inverse t) (t3_transform_point t p) = p /\ t3_transform_point t (t3_transform_point (t3_inverse t) p) = p /\
  t3_transform_vector (t3_inverse t) (t3_transform_vector t v) = v /\ t3_transform_vector t (t3_transform_vector (t3_inverse t) v) = v /\
  (* and_then composes; its inverse composes the inverses in the opposite order *)
  t3_transform_point (t3_and_then t n) p = t3_transform_point n (t3_transform_point t p) /\
  t3_transform_vector (t3_and_then t n) v = t3_transform_vector n (t3_transform_vector t v) /\
  t3_inverse (t3_and_then t n) = t3_and_then (t3_inverse n) (t3_inverse t) /\
  (* transforms respect sums, multiples and rays *)
  t3_transform_point t (p3_add p v) = p3_add (t3_transform_point t p) (t3_transform_vector t v) /\
  t3_transform_vector t (v3_add v w) = v3_add (t3_transform_vector t v) (t3_transform_vector t w) /\
  t3_transform_vector t (v3_mul v s) = v3_mul (t3_transform_vector t v) s /\
  r3_at (t3_transform_ray t (r3_new p v)) s = t3_transform_point t (r3_at (r3_new p v) s).
Proof.
  intros S O H DL TL t n T N p v w s. pose proof (ring_of H) as RT. destruct (made3_good RT DL TL t T) as (A & B & C & D), (made3_good RT DL TL n N) as (A' & B' & C' & D').
  unfold t3_transform_ray, r3_at, r3_new, t3_transform_point, t3_transform_vector, t3_inverse, t3_and_then, t3_new. cbn [t3_forward t3_inv r3_origin r3_direction].
  rewrite <- !(mulp4 RT DL), <- !(mulv4 RT), !C, !D, !(idp4 RT DL), !(idv4 RT), !(mp4_add RT DL), !(mv4_add RT), !(mv4_mul RT) by assumption. repeat split.
Qed.
Lemma C100_look_at_pf : forall (S : Type) (O : ScalarOps S), RingLaws S -> DivLaws S -> forall (prof : profile) (from target : Point3 S) (up : Vector3 S),
  let d := v3_normalize (p3_sub target from) in
  Normalizable (p3_sub target from) -> Normalizable (v3_cross (v3_normalize up) d) ->
  exists t, t3_look_at prof from target up = Ret (Ok t) /\
    (* the camera goes to the origin, and the direction it looks at to the z axis *)
    t3_transform_point t from = p3_origin /\ t3_transform_vector t d = v3_z_axis /\
    (* the inverse undoes the transform *)
    (forall p, t3_transform_point (t3_inverse t) (t3_transform_point t p) = p /\ t3_transform_point t (t3_transform_point (t3_inverse t) p) = p) /\
    (forall v, t3_transform_vector (t3_inverse t) (t3_transform_vector t v) = v /\ t3_transform_vector t (t3_transform_vector (t3_inverse t) v) = v).
Proof.
  intros S O H DL prof from target up d N1 N2. pose proof (ring_of H) as RT. destruct (look_ok RT DL prof from target up N1 N2) as (t & E & (A & B & C & D) & P & V). exists t. split; [exact E|]. split; [exact P|]. split; [exact V|].
  unfold t3_transform_point, t3_transform_vector, t3_inverse, t3_new. cbn [t3_forward t3_inv]. split; intros x.
  - rewrite <- !(mulp4 RT DL) by assumption. rewrite C, D, !(idp4 RT DL). now split.
  - rewrite <- !(mulv4 RT) by assumption. rewrite C, D, !(idv4 RT). now split.
Qed.
