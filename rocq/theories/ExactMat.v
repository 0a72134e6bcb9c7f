(** Proofs of the exact-arithmetic matrix and transform properties. *)
From Coq Require Import Bool NArith ZArith Reals List Lra Lia Psatz.
From Flocq Require Import Core.Raux.
From Verif Require Import Scalar Types Vector2 Vector3 Point2 Point3 Ray BoundingBox2 BoundingBox3 Transform2 Transform3
  XReal OrdLaws Arith SpecOrder SpecStruct SpecReal XTac ExactBase ExactVec Comm MatComm Struct Struct2 Adj4.
Import ListNotations.
Local Open Scope R_scope.

(* The model at the real numbers (proof device; division and square root are used only where they agree). *)
Definition R_ops : ScalarOps R := {|
  szero := 0; sone := 1; shalf := 1 / 2; stwo := 2; sinf := 0; sninf := 0;
  sadd := Rplus; ssub := fun a b => a + - b; smul := Rmult; sdiv := Rdiv; sneg := Ropp; sabs := Rabs; ssqrt := sqrt;
  sfloor := fun x => x; sceil := fun x => x; sround := fun x => x; strunc := fun x => x; sfract := fun x => x;
  srecip := fun x => 1 / x; sfmin := Rmin; sfmax := Rmax; ssin_cos := fun x => (sin x, cos x);
  slt := Rlt_bool; sle := Rle_bool; seq := Req_bool; snan := fun _ => false |}.
Ltac rcbv := cbv beta iota zeta delta [R_ops szero sone sadd ssub smul sdiv sneg srecip ssqrt ssin_cos
  m3_new m3_mul m3_transpose m3_muls m3_divs m3_map m3_identity m4_new m4_mul m4_transpose m4_muls m4_divs m4_map m4_identity
  m3_translate m3_rotate m3_scale m3_scale_uniform m4_translate m4_rotate_x m4_rotate_y m4_rotate_z m4_scale m4_scale_uniform
  m3_mul_point m4_mul_point m3_mul_vector m4_mul_vector p2_new p3_new v2_new v3_new v2_neg v3_neg
  p2x p2y p3x p3y p3z v2x v2y v3x v3y v3z r2_origin r2_direction r3_origin r3_direction
  m3_0 m3_1 m3_2 m3_3 m3_4 m3_5 m3_6 m3_7 m3_8 m4_0 m4_1 m4_2 m4_3 m4_4 m4_5
  m4_6 m4_7 m4_8 m4_9 m4_10 m4_11 m4_12 m4_13 m4_14 m4_15 adj4 det4].
Ltac mred := cbv [mat_det mat_minor mat_mul mat_id sum_n ent3 ent4 nth Nat.ltb Nat.leb Nat.mul Nat.add Nat.eqb pow
  mat_apply hom2 hom3 dir2 dir3 weight2 weight3 dehom2 dehom3 img2 img3 affine2 affine3
  p2x p2y p3x p3y p3z v2x v2y v3x v3y v3z
  m3_0 m3_1 m3_2 m3_3 m3_4 m3_5 m3_6 m3_7 m3_8 m4_0 m4_1 m4_2 m4_3 m4_4 m4_5
  m4_6 m4_7 m4_8 m4_9 m4_10 m4_11 m4_12 m4_13 m4_14 m4_15].
Ltac mred_in H := cbv [mat_det mat_minor mat_mul mat_id sum_n ent3 ent4 nth Nat.ltb Nat.leb Nat.mul Nat.add Nat.eqb pow
  mat_apply hom2 hom3 dir2 dir3 weight2 weight3 dehom2 dehom3 img2 img3 affine2 affine3
  p2x p2y p3x p3y p3z v2x v2y v3x v3y v3z
  m3_0 m3_1 m3_2 m3_3 m3_4 m3_5 m3_6 m3_7 m3_8 m4_0 m4_1 m4_2 m4_3 m4_4 m4_5
  m4_6 m4_7 m4_8 m4_9 m4_10 m4_11 m4_12 m4_13 m4_14 m4_15] in H.
Lemma mkT2_eq {S} (a b c d : Matrix3x3 S) : a = c -> b = d -> mkT2 a b = mkT2 c d.
Proof. congruence. Qed.
Lemma mkT3_eq {S} (a b c d : Matrix4x4 S) : a = c -> b = d -> mkT3 a b = mkT3 c d.
Proof. congruence. Qed.
Ltac meqs := repeat match goal with
  | |- mkM3 _ _ _ _ _ _ _ _ _ = mkM3 _ _ _ _ _ _ _ _ _ => apply mkM3_eq
  | |- mkM4 _ _ _ _ _ _ _ _ _ _ _ _ _ _ _ _ = mkM4 _ _ _ _ _ _ _ _ _ _ _ _ _ _ _ _ => apply mkM4_eq
  | |- mkT2 _ _ = mkT2 _ _ => apply mkT2_eq
  | |- mkT3 _ _ = mkT3 _ _ => apply mkT3_eq
  end; xeqs.
Ltac ncases3 r := let K := fresh in assert (K : (r = 0 \/ r = 1 \/ r = 2)%N) by lia; destruct K as [-> | [-> | ->]].
Ltac ncases4 r := let K := fresh in assert (K : (r = 0 \/ r = 1 \/ r = 2 \/ r = 3)%N) by lia; destruct K as [-> | [-> | [-> | ->]]].
Ltac natcases3 r := let K := fresh in assert (K : (r = 0 \/ r = 1 \/ r = 2)%nat) by lia; destruct K as [-> | [-> | ->]].
Ltac natcases4 r := let K := fresh in assert (K : (r = 0 \/ r = 1 \/ r = 2 \/ r = 3)%nat) by lia; destruct K as [-> | [-> | [-> | ->]]].

Lemma m3_get_ent prof (m : Matrix3x3 R) r c : (r < 3)%N -> (c < 3)%N ->
  m3_get prof (XM3 m) r c = Ret (Fin (ent3 m (N.to_nat r) (N.to_nat c))).
Proof.
  intros Hr Hc. destruct (m3_cases r c Hr Hc) as (i & Hi & E & H). unfold m3_get. rewrite H. cbn [obind]. subst i.
  ncases3 r; ncases3 c; reflexivity.
Qed.
Lemma XM3_inj a b : XM3 a = XM3 b -> a = b.
Proof. destruct a, b. unfold XM3; cbn. intros H. injection H. intros. subst. reflexivity. Qed.
Lemma XM3_ext a b : (forall r c, (r < 3)%nat -> (c < 3)%nat -> ent3 a r c = ent3 b r c) -> a = b.
Proof.
  destruct a, b. intros H.
  pose proof (fun c => H 0%nat c ltac:(lia)) as H0. pose proof (fun c => H 1%nat c ltac:(lia)) as H1.
  pose proof (fun c => H 2%nat c ltac:(lia)) as H2. try pose proof (fun c => H 3%nat c ltac:(lia)) as H3. clear H.
  meqs;
  first [exact (H0 0%nat ltac:(lia)) | exact (H0 1%nat ltac:(lia)) | exact (H0 2%nat ltac:(lia)) | exact (H0 3%nat ltac:(lia)) |
         exact (H1 0%nat ltac:(lia)) | exact (H1 1%nat ltac:(lia)) | exact (H1 2%nat ltac:(lia)) | exact (H1 3%nat ltac:(lia)) |
         exact (H2 0%nat ltac:(lia)) | exact (H2 1%nat ltac:(lia)) | exact (H2 2%nat ltac:(lia)) | exact (H2 3%nat ltac:(lia)) |
         exact (H3 0%nat ltac:(lia)) | exact (H3 1%nat ltac:(lia)) | exact (H3 2%nat ltac:(lia)) | exact (H3 3%nat ltac:(lia))].
Qed.
Lemma xm3_mul (a b : Matrix3x3 R) : m3_mul (XM3 a) (XM3 b) = XM3 (m3_mul (O := R_ops) a b).
Proof. reflexivity. Qed.
Lemma xm3_identity : m3_identity = XM3 (m3_identity (O := R_ops)).
Proof. reflexivity. Qed.
Lemma rm3_mul_ent (a b : Matrix3x3 R) r c : (r < 3)%nat -> (c < 3)%nat ->
  ent3 (m3_mul (O := R_ops) a b) r c = mat_mul 3 (ent3 a) (ent3 b) r c.
Proof. intros Hr Hc. destruct a, b. natcases3 r; natcases3 c; mred; rcbv; ring. Qed.
Lemma rm3_id_ent r c : (r < 3)%nat -> (c < 3)%nat -> ent3 (m3_identity (O := R_ops)) r c = mat_id r c.
Proof. intros Hr Hc. natcases3 r; natcases3 c; reflexivity. Qed.
Lemma det3_mul (a b : matrix) : mat_det 3 (mat_mul 3 a b) = mat_det 3 a * mat_det 3 b.
Proof. mred. ring. Qed.
Lemma det3_id : mat_det 3 mat_id = 1.
Proof. mred. ring. Qed.
Lemma det3_ext (a b : matrix) : mat_eq 3 a b -> mat_det 3 a = mat_det 3 b.
Proof.
  intros H. mred. 
  repeat match goal with |- context [a ?r ?c] => rewrite (H r c) by lia end. reflexivity.
Qed.
Lemma id_mul3_iff (a b : Matrix3x3 R) :
  m3_mul (XM3 a) (XM3 b) = m3_identity <-> mat_eq 3 (mat_mul 3 (ent3 a) (ent3 b)) mat_id.
Proof.
  rewrite xm3_mul, xm3_identity. split.
  - intros H. apply XM3_inj in H. intros r c Hr Hc. now rewrite <- rm3_mul_ent, H, rm3_id_ent.
  - intros H. f_equal. apply XM3_ext. intros r c Hr Hc. rewrite rm3_mul_ent, rm3_id_ent; auto.
Qed.

Lemma m4_get_ent prof (m : Matrix4x4 R) r c : (r < 4)%N -> (c < 4)%N ->
  m4_get prof (XM4 m) r c = Ret (Fin (ent4 m (N.to_nat r) (N.to_nat c))).
Proof.
  intros Hr Hc. destruct (m4_cases r c Hr Hc) as (i & Hi & E & H). unfold m4_get. rewrite H. cbn [obind]. subst i.
  ncases4 r; ncases4 c; reflexivity.
Qed.
Lemma XM4_inj a b : XM4 a = XM4 b -> a = b.
Proof. destruct a, b. unfold XM4; cbn. intros H. injection H. intros. subst. reflexivity. Qed.
Lemma XM4_ext a b : (forall r c, (r < 4)%nat -> (c < 4)%nat -> ent4 a r c = ent4 b r c) -> a = b.
Proof.
  destruct a, b. intros H.
  pose proof (fun c => H 0%nat c ltac:(lia)) as H0. pose proof (fun c => H 1%nat c ltac:(lia)) as H1.
  pose proof (fun c => H 2%nat c ltac:(lia)) as H2. try pose proof (fun c => H 3%nat c ltac:(lia)) as H3. clear H.
  meqs;
  first [exact (H0 0%nat ltac:(lia)) | exact (H0 1%nat ltac:(lia)) | exact (H0 2%nat ltac:(lia)) | exact (H0 3%nat ltac:(lia)) |
         exact (H1 0%nat ltac:(lia)) | exact (H1 1%nat ltac:(lia)) | exact (H1 2%nat ltac:(lia)) | exact (H1 3%nat ltac:(lia)) |
         exact (H2 0%nat ltac:(lia)) | exact (H2 1%nat ltac:(lia)) | exact (H2 2%nat ltac:(lia)) | exact (H2 3%nat ltac:(lia)) |
         exact (H3 0%nat ltac:(lia)) | exact (H3 1%nat ltac:(lia)) | exact (H3 2%nat ltac:(lia)) | exact (H3 3%nat ltac:(lia))].
Qed.
Lemma xm4_mul (a b : Matrix4x4 R) : m4_mul (XM4 a) (XM4 b) = XM4 (m4_mul (O := R_ops) a b).
Proof. reflexivity. Qed.
Lemma xm4_identity : m4_identity = XM4 (m4_identity (O := R_ops)).
Proof. reflexivity. Qed.
Lemma rm4_mul_ent (a b : Matrix4x4 R) r c : (r < 4)%nat -> (c < 4)%nat ->
  ent4 (m4_mul (O := R_ops) a b) r c = mat_mul 4 (ent4 a) (ent4 b) r c.
Proof. intros Hr Hc. destruct a, b. natcases4 r; natcases4 c; mred; rcbv; ring. Qed.
Lemma rm4_id_ent r c : (r < 4)%nat -> (c < 4)%nat -> ent4 (m4_identity (O := R_ops)) r c = mat_id r c.
Proof. intros Hr Hc. natcases4 r; natcases4 c; reflexivity. Qed.
Lemma det4_mul (a b : matrix) : mat_det 4 (mat_mul 4 a b) = mat_det 4 a * mat_det 4 b.
Proof. mred. ring. Qed.
Lemma det4_id : mat_det 4 mat_id = 1.
Proof. mred. ring. Qed.
Lemma det4_ext (a b : matrix) : mat_eq 4 a b -> mat_det 4 a = mat_det 4 b.
Proof.
  intros H. mred. 
  repeat match goal with |- context [a ?r ?c] => rewrite (H r c) by lia end. reflexivity.
Qed.
Lemma id_mul4_iff (a b : Matrix4x4 R) :
  m4_mul (XM4 a) (XM4 b) = m4_identity <-> mat_eq 4 (mat_mul 4 (ent4 a) (ent4 b)) mat_id.
Proof.
  rewrite xm4_mul, xm4_identity. split.
  - intros H. apply XM4_inj in H. intros r c Hr Hc. now rewrite <- rm4_mul_ent, H, rm4_id_ent.
  - intros H. f_equal. apply XM4_ext. intros r c Hr Hc. rewrite rm4_mul_ent, rm4_id_ent; auto.
Qed.

Lemma C37_product_entries_3x3_pf : forall (prof : profile) (a b : Matrix3x3 R) (r c : N), (r < 3)%N -> (c < 3)%N ->
  m3_get prof (m3_mul (XM3 a) (XM3 b)) r c = Ret (Fin (mat_mul 3 (ent3 a) (ent3 b) (N.to_nat r) (N.to_nat c))) /\
  m3_get prof (XM3 a) r c = Ret (Fin (ent3 a (N.to_nat r) (N.to_nat c))).
Proof.
  intros prof a b r c Hr Hc. split; [|now apply m3_get_ent]. rewrite xm3_mul, m3_get_ent by assumption. rewrite rm3_mul_ent by lia. reflexivity.
Qed.
Lemma C37_product_entries_4x4_pf : forall (prof : profile) (a b : Matrix4x4 R) (r c : N), (r < 4)%N -> (c < 4)%N ->
  m4_get prof (m4_mul (XM4 a) (XM4 b)) r c = Ret (Fin (mat_mul 4 (ent4 a) (ent4 b) (N.to_nat r) (N.to_nat c))) /\
  m4_get prof (XM4 a) r c = Ret (Fin (ent4 a (N.to_nat r) (N.to_nat c))).
Proof.
  intros prof a b r c Hr Hc. split; [|now apply m4_get_ent]. rewrite xm4_mul, m4_get_ent by assumption. rewrite rm4_mul_ent by lia. reflexivity.
Qed.
Lemma C37_product_algebra_3x3_pf : forall a b c : Matrix3x3 R,
  m3_mul (m3_mul (XM3 a) (XM3 b)) (XM3 c) = m3_mul (XM3 a) (m3_mul (XM3 b) (XM3 c)) /\
  m3_mul m3_identity (XM3 a) = XM3 a /\ m3_mul (XM3 a) m3_identity = XM3 a.
Proof.
  intros a b c. rewrite xm3_identity, !xm3_mul. destruct a, b, c. repeat split; f_equal; rcbv; meqs; ring.
Qed.
Lemma C37_product_algebra_4x4_pf : forall a b c : Matrix4x4 R,
  m4_mul (m4_mul (XM4 a) (XM4 b)) (XM4 c) = m4_mul (XM4 a) (m4_mul (XM4 b) (XM4 c)) /\
  m4_mul m4_identity (XM4 a) = XM4 a /\ m4_mul (XM4 a) m4_identity = XM4 a.
Proof.
  intros a b c. rewrite xm4_identity, !xm4_mul. destruct a, b, c. repeat split; f_equal; rcbv; meqs; ring.
Qed.
Lemma C37_scalar_entries_3x3_pf : forall (prof : profile) (a : Matrix3x3 R) (s : R) (r c : N), (r < 3)%N -> (c < 3)%N ->
  m3_get prof (m3_muls (XM3 a) (Fin s)) r c = Ret (Fin (ent3 a (N.to_nat r) (N.to_nat c) * s)) /\
  m3_get prof (m3_lmuls (Fin s) (XM3 a)) r c = Ret (Fin (ent3 a (N.to_nat r) (N.to_nat c) * s)) /\
  (s <> 0 -> m3_get prof (m3_divs (XM3 a) (Fin s)) r c = Ret (Fin (ent3 a (N.to_nat r) (N.to_nat c) / s))).
Proof.
  intros prof a s r c Hr Hc.
  assert (E1 : m3_muls (XM3 a) (Fin s) = XM3 (m3_muls (O := R_ops) a s)) by reflexivity.
  unfold m3_lmuls. rewrite E1, m3_get_ent by assumption. split; [|split].
  - f_equal; apply Fin_eq. destruct a. ncases3 r; ncases3 c; reflexivity.
  - f_equal; apply Fin_eq. destruct a. ncases3 r; ncases3 c; reflexivity.
  - intros Hs. assert (E2 : m3_divs (XM3 a) (Fin s) = XM3 (m3_divs (O := R_ops) a s)).
    { destruct a. xcbv. rewrite !xdiv_fin by assumption. reflexivity. }
    rewrite E2, m3_get_ent by assumption. f_equal; apply Fin_eq. destruct a. ncases3 r; ncases3 c; reflexivity.
Qed.
Lemma C37_scalar_entries_4x4_pf : forall (prof : profile) (a : Matrix4x4 R) (s : R) (r c : N), (r < 4)%N -> (c < 4)%N ->
  m4_get prof (m4_muls (XM4 a) (Fin s)) r c = Ret (Fin (ent4 a (N.to_nat r) (N.to_nat c) * s)) /\
  m4_get prof (m4_lmuls (Fin s) (XM4 a)) r c = Ret (Fin (ent4 a (N.to_nat r) (N.to_nat c) * s)) /\
  (s <> 0 -> m4_get prof (m4_divs (XM4 a) (Fin s)) r c = Ret (Fin (ent4 a (N.to_nat r) (N.to_nat c) / s))).
Proof.
  intros prof a s r c Hr Hc.
  assert (E1 : m4_muls (XM4 a) (Fin s) = XM4 (m4_muls (O := R_ops) a s)) by reflexivity.
  unfold m4_lmuls. rewrite E1, m4_get_ent by assumption. split; [|split].
  - f_equal; apply Fin_eq. destruct a. ncases4 r; ncases4 c; reflexivity.
  - f_equal; apply Fin_eq. destruct a. ncases4 r; ncases4 c; reflexivity.
  - intros Hs. assert (E2 : m4_divs (XM4 a) (Fin s) = XM4 (m4_divs (O := R_ops) a s)).
    { destruct a. xcbv. rewrite !xdiv_fin by assumption. reflexivity. }
    rewrite E2, m4_get_ent by assumption. f_equal; apply Fin_eq. destruct a. ncases4 r; ncases4 c; reflexivity.
Qed.
Lemma rdet3 (m : Matrix3x3 R) : m3_det (XM3 m) = Fin (mat_det 3 (ent3 m)).
Proof. destruct m. xcbv. mred. apply Fin_eq. ring. Qed.
Definition Rinv3 (m : Matrix3x3 R) : Matrix3x3 R :=
  let d := mat_det 3 (ent3 m) in
  mkM3 ((m3_4 m * m3_8 m - m3_5 m * m3_7 m) / d) ((m3_2 m * m3_7 m - m3_1 m * m3_8 m) / d) ((m3_1 m * m3_5 m - m3_2 m * m3_4 m) / d)
       ((m3_5 m * m3_6 m - m3_3 m * m3_8 m) / d) ((m3_0 m * m3_8 m - m3_2 m * m3_6 m) / d) ((m3_2 m * m3_3 m - m3_0 m * m3_5 m) / d)
       ((m3_3 m * m3_7 m - m3_4 m * m3_6 m) / d) ((m3_1 m * m3_6 m - m3_0 m * m3_7 m) / d) ((m3_0 m * m3_4 m - m3_1 m * m3_3 m) / d).
Lemma xm3_inverse_ok m : mat_det 3 (ent3 m) <> 0 -> m3_inverse (XM3 m) = Ok (XM3 (Rinv3 m)).
Proof.
  intros H. unfold m3_inverse. rewrite rdet3. cbn [seq szero xreal_ops].
  rewrite (proj2 (xeq_fin_false _ _) H). cbn [negb]. f_equal.
  unfold Rinv3. set (d := mat_det 3 (ent3 m)) in *. destruct m. xcbv. rewrite !xdiv_fin by assumption. reflexivity.
Qed.
Lemma xm3_inverse_err m : mat_det 3 (ent3 m) = 0 -> m3_inverse (XM3 m) = Err.
Proof.
  intros H. unfold m3_inverse. rewrite rdet3. cbn [seq szero xreal_ops]. rewrite H.
  now rewrite (proj2 (xeq_fin 0 0) eq_refl).
Qed.
Lemma Rinv3_mul m : mat_det 3 (ent3 m) <> 0 ->
  m3_mul (XM3 m) (XM3 (Rinv3 m)) = m3_identity /\ m3_mul (XM3 (Rinv3 m)) (XM3 m) = m3_identity.
Proof.
  intros H. rewrite xm3_identity, !xm3_mul. unfold Rinv3. set (d := mat_det 3 (ent3 m)) in *.
  assert (K : d * / d = 1) by (apply Rinv_r; assumption). unfold Rdiv.
  set (k := / d) in *. clearbody k. subst d. destruct m. mred_in K.
  split; f_equal; rcbv; meqs; first [ring | etransitivity; [|exact K]; ring].
Qed.
Lemma rdet4 (m : Matrix4x4 R) : det4 (XM4 m) = Fin (mat_det 4 (ent4 m)).
Proof. destruct m. unfold det4, adj4. xcbv. mred. apply Fin_eq. ring. Qed.
Definition Rinv4 (m : Matrix4x4 R) : Matrix4x4 R := m4_divs (O := R_ops) (adj4 (O := R_ops) m) (mat_det 4 (ent4 m)).
Lemma xm4_adj m : adj4 (XM4 m) = XM4 (adj4 (O := R_ops) m).
Proof. reflexivity. Qed.
Lemma xm4_inverse_ok prof m : mat_det 4 (ent4 m) <> 0 -> m4_inverse prof (XM4 m) = Ret (Ok (XM4 (Rinv4 m))).
Proof.
  intros H. rewrite m4_inverse_closed. rewrite rdet4. cbn [seq szero xreal_ops].
  rewrite (proj2 (xeq_fin_false _ _) H). cbn [negb]. f_equal. f_equal.
  unfold Rinv4. rewrite xm4_adj. generalize (adj4 (O := R_ops) m). intros a. destruct a.
  set (d := mat_det 4 (ent4 m)) in *. xcbv. rewrite !xdiv_fin by assumption. reflexivity.
Qed.
Lemma xm4_inverse_err prof m : mat_det 4 (ent4 m) = 0 -> m4_inverse prof (XM4 m) = Ret Err.
Proof.
  intros H. rewrite m4_inverse_closed, rdet4. cbn [seq szero xreal_ops]. rewrite H.
  now rewrite (proj2 (xeq_fin 0 0) eq_refl).
Qed.
Lemma Rinv4_mul m : mat_det 4 (ent4 m) <> 0 ->
  m4_mul (XM4 m) (XM4 (Rinv4 m)) = m4_identity /\ m4_mul (XM4 (Rinv4 m)) (XM4 m) = m4_identity.
Proof.
  intros H. rewrite xm4_identity, !xm4_mul. unfold Rinv4. set (d := mat_det 4 (ent4 m)) in *.
  assert (K : d * / d = 1) by (apply Rinv_r; assumption).
  cbv [m4_divs]. change (fun x : R => sdiv x d) with (fun x : R => x * / d).
  set (k := / d) in *. clearbody k. subst d. destruct m. mred_in K.
  split; f_equal; rcbv; meqs; first [ring | etransitivity; [|exact K]; ring].
Qed.
Lemma C38_inverse_ok_3x3_pf : forall m : Matrix3x3 R, mat_det 3 (ent3 m) <> 0 ->
  exists n : Matrix3x3 R, m3_inverse (XM3 m) = Ok (XM3 n) /\
    mat_eq 3 (mat_mul 3 (ent3 m) (ent3 n)) mat_id /\ mat_eq 3 (mat_mul 3 (ent3 n) (ent3 m)) mat_id /\
    m3_mul (XM3 m) (XM3 n) = m3_identity /\ m3_mul (XM3 n) (XM3 m) = m3_identity.
Proof.
  intros m H. exists (Rinv3 m). destruct (Rinv3_mul m H) as [H1 H2]. split; [now apply xm3_inverse_ok|].
  split; [apply id_mul3_iff; assumption|]. split; [apply id_mul3_iff; assumption|]. split; assumption.
Qed.
Lemma C38_inverse_err_3x3_pf : forall m : Matrix3x3 R, mat_det 3 (ent3 m) = 0 -> m3_inverse (XM3 m) = Err.
Proof.
  exact xm3_inverse_err.
Qed.
Lemma C38_ok_iff_invertible_3x3_pf : forall m : Matrix3x3 R,
  ((exists i, m3_inverse (XM3 m) = Ok i) <-> (exists n : matrix, mat_eq 3 (mat_mul 3 (ent3 m) n) mat_id)) /\
  ((exists i, m3_inverse (XM3 m) = Ok i) <-> mat_det 3 (ent3 m) <> 0).
Proof.
  intros m. assert (D : (exists i, m3_inverse (XM3 m) = Ok i) <-> mat_det 3 (ent3 m) <> 0).
  { split.
    - intros [i Hi] Z. rewrite xm3_inverse_err in Hi by assumption. discriminate.
    - intros H. exists (XM3 (Rinv3 m)). now apply xm3_inverse_ok. }
  split; [|exact D]. rewrite D. split.
  - intros H. exists (ent3 (Rinv3 m)). apply id_mul3_iff. now apply Rinv3_mul.
  - intros [n Hn] Z. apply det3_ext in Hn. rewrite det3_mul, det3_id, Z in Hn. lra.
Qed.
Lemma C38_inverse_ok_4x4_pf : forall (prof : profile) (m : Matrix4x4 R), mat_det 4 (ent4 m) <> 0 ->
  exists n : Matrix4x4 R, m4_inverse prof (XM4 m) = Ret (Ok (XM4 n)) /\
    mat_eq 4 (mat_mul 4 (ent4 m) (ent4 n)) mat_id /\ mat_eq 4 (mat_mul 4 (ent4 n) (ent4 m)) mat_id /\
    m4_mul (XM4 m) (XM4 n) = m4_identity /\ m4_mul (XM4 n) (XM4 m) = m4_identity.
Proof.
  intros prof m H. exists (Rinv4 m). destruct (Rinv4_mul m H) as [H1 H2]. split; [now apply xm4_inverse_ok|].
  split; [apply id_mul4_iff; assumption|]. split; [apply id_mul4_iff; assumption|]. split; assumption.
Qed.
Lemma C38_inverse_err_4x4_pf : forall (prof : profile) (m : Matrix4x4 R), mat_det 4 (ent4 m) = 0 -> m4_inverse prof (XM4 m) = Ret Err.
Proof.
  exact xm4_inverse_err.
Qed.
Lemma C38_ok_iff_invertible_4x4_pf : forall (prof : profile) (m : Matrix4x4 R),
  ((exists i, m4_inverse prof (XM4 m) = Ret (Ok i)) <-> (exists n : matrix, mat_eq 4 (mat_mul 4 (ent4 m) n) mat_id)) /\
  ((exists i, m4_inverse prof (XM4 m) = Ret (Ok i)) <-> mat_det 4 (ent4 m) <> 0).
Proof.
  intros prof m. assert (D : (exists i, m4_inverse prof (XM4 m) = Ret (Ok i)) <-> mat_det 4 (ent4 m) <> 0).
  { split.
    - intros [i Hi] Z. rewrite xm4_inverse_err in Hi by assumption. discriminate.
    - intros H. exists (XM4 (Rinv4 m)). now apply xm4_inverse_ok. }
  split; [|exact D]. rewrite D. split.
  - intros H. exists (ent4 (Rinv4 m)). apply id_mul4_iff. now apply Rinv4_mul.
  - intros [n Hn] Z. apply det4_ext in Hn. rewrite det4_mul, det4_id, Z in Hn. lra.
Qed.
Lemma C38_inverse_never_panics_4x4_pf : forall (A : arith) (prof : profile) (m : Matrix4x4 (num A)), m4_inverse prof m <> Panic.
Proof.
  intros A prof m. rewrite m4_inverse_closed. discriminate.
Qed.
