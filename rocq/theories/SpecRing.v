(** Specification vocabulary for C100: scalar types that obey the laws of arithmetic.
    Any type with the operations of the trait [Scalar] can be used with the crate; these are the laws some of them satisfy
    with plain equality (numbers of unlimited precision, rational functions, dual numbers for automatic differentiation ...). *)
From Coq Require Import List.
From Verif Require Import Scalar Types Vector2 Vector3 Point2 Point3 Ray Transform2 Transform3.
Import ListNotations.
Section L.
Context {S : Type} {O : ScalarOps S}.
Local Open Scope s_scope.
(* a commutative ring *)
Record RingLaws : Prop := {
  rl_add_comm : forall x y, x + y = y + x;
  rl_add_assoc : forall x y z, x + (y + z) = (x + y) + z;
  rl_add_zero : forall x, szero + x = x;
  rl_mul_comm : forall x y, x * y = y * x;
  rl_mul_assoc : forall x y z, x * (y * z) = (x * y) * z;
  rl_mul_one : forall x, sone * x = x;
  rl_distr : forall x y z, (x + y) * z = x * z + y * z;
  rl_sub : forall x y, x - y = x + - y;
  rl_opp : forall x, x + - x = szero
}.
(* y has a multiplicative inverse *)
Definition Unit (y : S) : Prop := exists z, y * z = sone.
(* division by an invertible element undoes multiplication; recip is 1/x; an invertible element is reported as different from zero *)
Record DivLaws : Prop := {
  dl_div : forall x y, Unit y -> (x / y) * y = x;
  dl_recip : forall y, Unit y -> srecip y * y = sone;
  dl_nonzero : forall y, Unit y -> (y == szero) = false
}.
(* sin^2 + cos^2 = 1 *)
Definition TrigLaw : Prop := forall a, fst (ssin_cos a) * fst (ssin_cos a) + snd (ssin_cos a) * snd (ssin_cos a) = sone.
(* last row 0 ... 0 1 *)
Definition AffineS3 (m : Matrix3x3 S) : Prop := m3_6 m = szero /\ m3_7 m = szero /\ m3_8 m = sone.
Definition AffineS4 (m : Matrix4x4 S) : Prop := m4_12 m = szero /\ m4_13 m = szero /\ m4_14 m = szero /\ m4_15 m = sone.

(* some matrix is a right inverse *)
Definition Invertible3 (m : Matrix3x3 S) : Prop := exists n, m3_mul m n = m3_identity.
Definition Invertible4 (m : Matrix4x4 S) : Prop := exists n, m4_mul m n = m4_identity.
(* length() of the vector is a square root of its dot product with itself, and invertible *)
Definition Normalizable (v : Vector3 S) : Prop := v3_length v * v3_length v = v3_dot v v /\ Unit (v3_length v).
(** transforms built by the constructors with sensible parameters, composition and inversion *)
Inductive Made2 : Transform2 S -> Prop :=
| made2_identity : Made2 t2_identity
| made2_translate v : Made2 (t2_translate v)
| made2_rotate a : Made2 (t2_rotate a)
| made2_scale sx sy : Unit sx -> Unit sy -> Made2 (t2_scale sx sy)
| made2_scale_uniform s : Unit s -> Made2 (t2_scale_uniform s)
| made2_try_from m t : t2_try_from m = Ok t -> AffineS3 m -> Invertible3 m -> Made2 t
| made2_and_then t n : Made2 t -> Made2 n -> Made2 (t2_and_then t n)
| made2_inverse t : Made2 t -> Made2 (t2_inverse t).
Inductive Made3 : Transform3 S -> Prop :=
| made3_identity : Made3 t3_identity
| made3_translate v : Made3 (t3_translate v)
| made3_rotate_x a : Made3 (t3_rotate_x a)
| made3_rotate_y a : Made3 (t3_rotate_y a)
| made3_rotate_z a : Made3 (t3_rotate_z a)
| made3_rotate_axis v a : Normalizable v -> Made3 (t3_rotate_axis v a)
| made3_scale sx sy sz : Unit sx -> Unit sy -> Unit sz -> Made3 (t3_scale sx sy sz)
| made3_scale_uniform s : Unit s -> Made3 (t3_scale_uniform s)
| made3_try_from prof m t : t3_try_from prof m = Ret (Ok t) -> AffineS4 m -> Invertible4 m -> Made3 t
| made3_and_then t n : Made3 t -> Made3 n -> Made3 (t3_and_then t n)
| made3_inverse t : Made3 t -> Made3 (t3_inverse t).
End L.
Arguments RingLaws S {O}.
Arguments DivLaws S {O}.
Arguments TrigLaw S {O}.
