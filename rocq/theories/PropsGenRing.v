(** Theorems: C100 (the algebra over any scalar type that obeys the laws of arithmetic). *)
From Coq Require Import Bool NArith Reals List Lra.
From Flocq Require Import Core.Raux.
From Verif Require Import Scalar Types Vector2 Vector3 Point2 Point3 Ray Transform2 Transform3 SpecRing GenRing.
Import ListNotations.
(** * C100: vectors and points over any scalar type that is a commutative ring *)
Theorem C100_vectors_2d : forall (S : Type) (O : ScalarOps S), RingLaws S -> forall (a b c : Vector2 S) (p q : Point2 S) (s r : S),
  v2_dot a b = v2_dot b a /\ v2_dot (v2_add a b) c = sadd (v2_dot a c) (v2_dot b c) /\ v2_dot (v2_mul a s) b = smul s (v2_dot a b) /\
  v2_add a b = v2_add b a /\ v2_add (v2_add a b) c = v2_add a (v2_add b c) /\ v2_sub (v2_add a b) b = a /\ v2_add a (v2_neg a) = v2_zero /\
  v2_mul (v2_add a b) s = v2_add (v2_mul a s) (v2_mul b s) /\ v2_mul a (sadd s r) = v2_add (v2_mul a s) (v2_mul a r) /\ v2_mul (v2_mul a s) r = v2_mul a (smul s r) /\
  p2_add p (p2_sub q p) = q /\ p2_sub (p2_add p a) p = a /\ p2_add (p2_add p a) b = p2_add p (v2_add a b) /\ p2_sub_v (p2_add p a) a = p.
Proof. exact C100_vectors_2d_pf. Qed.
Print Assumptions C100_vectors_2d.
Theorem C100_vectors_3d : forall (S : Type) (O : ScalarOps S), RingLaws S -> forall (a b c : Vector3 S) (p q : Point3 S) (s r : S),
  v3_dot a b = v3_dot b a /\ v3_dot (v3_add a b) c = sadd (v3_dot a c) (v3_dot b c) /\ v3_dot (v3_mul a s) b = smul s (v3_dot a b) /\
  v3_add a b = v3_add b a /\ v3_add (v3_add a b) c = v3_add a (v3_add b c) /\ v3_sub (v3_add a b) b = a /\ v3_add a (v3_neg a) = v3_zero /\
  v3_mul (v3_add a b) s = v3_add (v3_mul a s) (v3_mul b s) /\ v3_mul a (sadd s r) = v3_add (v3_mul a s) (v3_mul a r) /\ v3_mul (v3_mul a s) r = v3_mul a (smul s r) /\
  p3_add p (p3_sub q p) = q /\ p3_sub (p3_add p a) p = a /\ p3_add (p3_add p a) b = p3_add p (v3_add a b) /\ p3_sub_v (p3_add p a) a = p.
Proof. exact C100_vectors_3d_pf. Qed.
Print Assumptions C100_vectors_3d.
Theorem C100_cross : forall (S : Type) (O : ScalarOps S), RingLaws S -> forall (a b c : Vector3 S) (s : S),
  v3_cross a b = v3_neg (v3_cross b a) /\ v3_dot a (v3_cross a b) = szero /\ v3_dot b (v3_cross a b) = szero /\ v3_cross a a = v3_zero /\
  v3_cross (v3_add a b) c = v3_add (v3_cross a c) (v3_cross b c) /\ v3_cross (v3_mul a s) b = v3_mul (v3_cross a b) s /\
  v3_dot (v3_cross a b) (v3_cross a b) = ssub (smul (v3_dot a a) (v3_dot b b)) (smul (v3_dot a b) (v3_dot a b)) /\
  v3_dot a (v3_cross b c) = v3_dot b (v3_cross c a) /\
  v3_add (v3_add (v3_cross a (v3_cross b c)) (v3_cross b (v3_cross c a))) (v3_cross c (v3_cross a b)) = v3_zero.
Proof. exact C100_cross_pf. Qed.
Print Assumptions C100_cross.
(** * C100: the matrix product *)
Theorem C100_matrix_product_2d : forall (S : Type) (O : ScalarOps S), RingLaws S -> forall a b c : Matrix3x3 S,
  m3_mul a (m3_mul b c) = m3_mul (m3_mul a b) c /\ m3_mul m3_identity a = a /\ m3_mul a m3_identity = a /\
  m3_transpose (m3_mul a b) = m3_mul (m3_transpose b) (m3_transpose a) /\ m3_transpose (m3_transpose a) = a.
Proof. exact C100_matrix_product_2d_pf. Qed.
Print Assumptions C100_matrix_product_2d.
Theorem C100_matrix_product_3d : forall (S : Type) (O : ScalarOps S), RingLaws S -> forall a b c : Matrix4x4 S,
  m4_mul a (m4_mul b c) = m4_mul (m4_mul a b) c /\ m4_mul m4_identity a = a /\ m4_mul a m4_identity = a /\
  m4_transpose (m4_mul a b) = m4_mul (m4_transpose b) (m4_transpose a) /\ m4_transpose (m4_transpose a) = a.
Proof. exact C100_matrix_product_3d_pf. Qed.
Print Assumptions C100_matrix_product_3d.
(** * C100: inverse() succeeds on every matrix that has an inverse, and returns it *)
Theorem C100_inverse_3x3 : forall (S : Type) (O : ScalarOps S), RingLaws S -> DivLaws S -> forall m n : Matrix3x3 S, m3_mul m n = m3_identity ->
  m3_inverse m = Ok n /\ m3_mul n m = m3_identity.
Proof. exact C100_inverse_3x3_pf. Qed.
Print Assumptions C100_inverse_3x3.
Theorem C100_inverse_4x4 : forall (S : Type) (O : ScalarOps S), RingLaws S -> DivLaws S -> forall (prof : profile) (m n : Matrix4x4 S), m4_mul m n = m4_identity ->
  m4_inverse prof m = Ret (Ok n) /\ m4_mul n m = m4_identity.
Proof. exact C100_inverse_4x4_pf. Qed.
Print Assumptions C100_inverse_4x4.
(** * C100: transforms *)
Theorem C100_transforms_2d : forall (S : Type) (O : ScalarOps S), RingLaws S -> DivLaws S -> TrigLaw S -> forall t n : Transform2 S, Made2 t -> Made2 n ->
  forall (p : Point2 S) (v w : Vector2 S) (s : S),
  (* the inverse undoes *)
  t2_transform_point (t2_inverse t) (t2_transform_point t p) = p /\ t2_transform_point t (t2_transform_point (t2_inverse t) p) = p /\
  t2_transform_vector (t2_inverse t) (t2_transform_vector t v) = v /\ t2_transform_vector t (t2_transform_vector (t2_inverse t) v) = v /\
  (* and_then composes; its inverse composes the inverses in the opposite order *)
  t2_transform_point (t2_and_then t n) p = t2_transform_point n (t2_transform_point t p) /\
  t2_transform_vector (t2_and_then t n) v = t2_transform_vector n (t2_transform_vector t v) /\
  t2_inverse (t2_and_then t n) = t2_and_then (t2_inverse n) (t2_inverse t) /\
  (* transforms respect sums, multiples and rays *)
  t2_transform_point t (p2_add p v) = p2_add (t2_transform_point t p) (t2_transform_vector t v) /\
  t2_transform_vector t (v2_add v w) = v2_add (t2_transform_vector t v) (t2_transform_vector t w) /\
  t2_transform_vector t (v2_mul v s) = v2_mul (t2_transform_vector t v) s /\
  r2_at (t2_transform_ray t (r2_new p v)) s = t2_transform_point t (r2_at (r2_new p v) s).
Proof. exact C100_transforms_2d_pf. Qed.
Print Assumptions C100_transforms_2d.
Theorem C100_transforms_3d : forall (S : Type) (O : ScalarOps S), RingLaws S -> DivLaws S -> TrigLaw S -> forall t n : Transform3 S, Made3 t -> Made3 n ->
  forall (p : Point3 S) (v w : Vector3 S) (s : S),
  (* the inverse undoes *)
  t3_transform_point (t3_inverse t) (t3_transform_point t p) = p /\ t3_transform_point t (t3_transform_point (t3_inverse t) p) = p /\
  t3_transform_vector (t3_inverse t) (t3_transform_vector t v) = v /\ t3_transform_vector t (t3_transform_vector (t3_inverse t) v) = v /\
  (* and_then composes; its inverse composes the inverses in the opposite order *)
  t3_transform_point (t3_and_then t n) p = t3_transform_point n (t3_transform_point t p) /\
  t3_transform_vector (t3_and_then t n) v = t3_transform_vector n (t3_transform_vector t v) /\
  t3_inverse (t3_and_then t n) = t3_and_then (t3_inverse n) (t3_inverse t) /\
  (* transforms respect sums, multiples and rays *)
  t3_transform_point t (p3_add p v) = p3_add (t3_transform_point t p) (t3_transform_vector t v) /\
  t3_transform_vector t (v3_add v w) = v3_add (t3_transform_vector t v) (t3_transform_vector t w) /\
  t3_transform_vector t (v3_mul v s) = v3_mul (t3_transform_vector t v) s /\
  r3_at (t3_transform_ray t (r3_new p v)) s = t3_transform_point t (r3_at (r3_new p v) s).
Proof. exact C100_transforms_3d_pf. Qed.
Print Assumptions C100_transforms_3d.
(** * C100: the camera *)
Theorem C100_look_at : forall (S : Type) (O : ScalarOps S), RingLaws S -> DivLaws S -> forall (prof : profile) (from target : Point3 S) (up : Vector3 S),
  let d := v3_normalize (p3_sub target from) in
  Normalizable (p3_sub target from) -> Normalizable (v3_cross (v3_normalize up) d) ->
  exists t, t3_look_at prof from target up = Ret (Ok t) /\
    (* the camera goes to the origin, and the direction it looks at to the z axis *)
    t3_transform_point t from = p3_origin /\ t3_transform_vector t d = v3_z_axis /\
    (* the inverse undoes the transform *)
    (forall p, t3_transform_point (t3_inverse t) (t3_transform_point t p) = p /\ t3_transform_point t (t3_transform_point (t3_inverse t) p) = p) /\
    (forall v, t3_transform_vector (t3_inverse t) (t3_transform_vector t v) = v /\ t3_transform_vector t (t3_transform_vector (t3_inverse t) v) = v).
Proof. exact C100_look_at_pf. Qed.
Print Assumptions C100_look_at.
(** The laws hold for a scalar type that is not a field: dual numbers a + b e with e * e = 0 (automatic differentiation). *)
Local Open Scope R_scope.
Definition Dual : Type := (R * R)%type.
Definition Rle_b (x y : R) : bool := if Rle_dec x y then true else false.
Definition Rlt_b (x y : R) : bool := if Rlt_dec x y then true else false.
Definition Req_b (x y : R) : bool := if Req_EM_T x y then true else false.
Definition dual_inv (x : Dual) : Dual := (/ fst x, - snd x * / fst x * / fst x).
Definition dual_mul (x y : Dual) : Dual := (fst x * fst y, fst x * snd y + snd x * fst y).
#[global] Instance DualOps : ScalarOps Dual := {|
  szero := (0, 0); sone := (1, 0); shalf := (/ 2, 0); stwo := (2, 0); sinf := (0, 0); sninf := (0, 0);
  sadd x y := (fst x + fst y, snd x + snd y); ssub x y := (fst x - fst y, snd x - snd y); smul := dual_mul; sdiv x y := dual_mul x (dual_inv y);
  sneg x := (- fst x, - snd x); sabs x := if Rle_b 0 (fst x) then x else (- fst x, - snd x); ssqrt x := (sqrt (fst x), snd x / (2 * sqrt (fst x)));
  sfloor x := x; sceil x := x; sround x := x; strunc x := x; sfract x := x; srecip := dual_inv;
  sfmin x y := if Rle_b (fst x) (fst y) then x else y; sfmax x y := if Rle_b (fst y) (fst x) then x else y;
  ssin_cos x := ((sin (fst x), snd x * cos (fst x)), (cos (fst x), - snd x * sin (fst x)));
  slt x y := Rlt_b (fst x) (fst y); sle x y := Rle_b (fst x) (fst y); seq x y := Req_b (fst x) (fst y); snan _ := false |}.
Lemma dual_ring : RingLaws Dual.
Proof. constructor; intros; repeat match goal with x : Dual |- _ => destruct x end; cbn; unfold dual_mul; cbn [fst snd]; f_equal; ring. Qed.
Lemma dual_unit (y : Dual) : Unit y -> fst y <> 0.
Proof. intros [z Z] E. apply (f_equal fst) in Z. cbn in Z. rewrite E in Z. lra. Qed.
Lemma dual_div : DivLaws Dual.
Proof.
  constructor; intros; match goal with H : Unit _ |- _ => apply dual_unit in H end; repeat match goal with x : Dual |- _ => destruct x end; cbn in *; unfold dual_mul, dual_inv; cbn [fst snd].
  - f_equal; now field.
  - f_equal; now field.
  - unfold Req_b. now destruct Req_EM_T.
Qed.
Lemma dual_trig : TrigLaw Dual.
Proof. intros [a b]. cbn. unfold dual_mul. cbn [fst snd]. f_equal; [|ring]. pose proof (sin2_cos2 a) as E. unfold Rsqr in E. exact E. Qed.
(** and a transform with invertible, non-constant parameters *)
Definition dt : Transform2 Dual := t2_and_then (t2_rotate (1, 1)) (t2_scale (2, 1) (3, 5)).
Example dt_made : Made2 dt.
Proof. apply made2_and_then; [apply made2_rotate | apply made2_scale; [exists (dual_inv (2, 1)) | exists (dual_inv (3, 5))]; cbn; unfold dual_mul, dual_inv; cbn [fst snd]; f_equal; field]. Qed.
Example dt_undone : t2_transform_point (t2_inverse dt) (t2_transform_point dt (mkPoint2 (7, 1) (4, 0))) = mkPoint2 (7, 1) (4, 0).
Proof. exact (proj1 (C100_transforms_2d Dual DualOps dual_ring dual_div dual_trig dt dt dt_made dt_made (mkPoint2 (7, 1) (4, 0)) (mkVector2 szero szero) (mkVector2 szero szero) szero)). Qed.
(** a vector that can be normalized over the dual numbers *)
Example dual_normalizable : Normalizable (mkVector3 (3, 1) (0, 2) (0, 0) : Vector3 Dual).
Proof.
  assert (E : v3_length (mkVector3 (3, 1) (0, 2) (0, 0) : Vector3 Dual) = (3, 1)).
  { cbv [v3_length v3_dot v3x v3y v3z]. cbn. unfold dual_mul. cbn [fst snd]. replace (3 * 3 + 0 * 0 + 0 * 0) with (3 * 3) by ring. rewrite sqrt_square by lra. f_equal. field. }
  split; rewrite E.
  - cbv [v3_dot v3x v3y v3z]. cbn. unfold dual_mul. cbn [fst snd]. f_equal; ring.
  - exists (dual_inv (3, 1)). cbn. unfold dual_mul, dual_inv. cbn [fst snd]. f_equal; field.
Qed.
