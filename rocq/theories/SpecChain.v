(** Specification vocabulary for C81 (chains of transforms in floating point): the transforms that can be built from the affine constructors
    with and_then and inverse, exact products of lists of matrices, and how underflow errors accumulate along a chain. *)
From Coq Require Import Reals List.
From Verif Require Import Scalar Types Vector2 Vector3 Point2 Point3 Transform2 Transform3 Float XReal Arith SpecReal.
Import ListNotations.
Local Open Scope R_scope.

Inductive Affine_built2 {A : arith} : Transform2 (num A) -> Prop :=
| AB2_identity : Affine_built2 t2_identity
| AB2_translate v : Affine_built2 (t2_translate v)
| AB2_rotate a : Affine_built2 (t2_rotate a)
| AB2_scale sx sy : Affine_built2 (t2_scale sx sy)
| AB2_scale_uniform s : Affine_built2 (t2_scale_uniform s)
| AB2_and_then t u : Affine_built2 t -> Affine_built2 u -> Affine_built2 (t2_and_then t u)
| AB2_inverse t : Affine_built2 t -> Affine_built2 (t2_inverse t).
Inductive Affine_built3 {A : arith} : Transform3 (num A) -> Prop :=
| AB3_identity : Affine_built3 t3_identity
| AB3_translate v : Affine_built3 (t3_translate v)
| AB3_rotate_x a : Affine_built3 (t3_rotate_x a)
| AB3_rotate_y a : Affine_built3 (t3_rotate_y a)
| AB3_rotate_z a : Affine_built3 (t3_rotate_z a)
| AB3_rotate_axis k a : Affine_built3 (t3_rotate_axis k a)
| AB3_scale sx sy sz : Affine_built3 (t3_scale sx sy sz)
| AB3_scale_uniform s : Affine_built3 (t3_scale_uniform s)
| AB3_and_then t u : Affine_built3 t -> Affine_built3 u -> Affine_built3 (t3_and_then t u)
| AB3_inverse t : Affine_built3 t -> Affine_built3 (t3_inverse t).

(* l = [M1; ...; Mk]: the exact products Mk * ... * M1 (apply M1 first) and M1 * ... * Mk *)
Definition chain (n : nat) (l : list matrix) : matrix := fold_left (fun c m => mat_mul n m c) l mat_id.
Definition chain_back (n : nat) (l : list matrix) : matrix := fold_left (fun c m => mat_mul n c m) l mat_id.
(* the underflow errors, in units of min_subnormal: each step multiplies the old ones by the absolute matrix and by g, and adds e *)
Definition floor_chain (n : nat) (g e : R) (l : list matrix) : matrix := fold_left (fun s m => fun r c => g * mat_mul n m s r c + e) l (fun _ _ => 0).
Definition floor_back (n : nat) (g e : R) (l : list matrix) : matrix := fold_left (fun s m => fun r c => g * mat_mul n s m r c + e) l (fun _ _ => 0).
Definition floor_path (n : nat) (g e : R) (l : list matrix) : nat -> R := fold_left (fun s m => fun r => g * mat_apply n m s r + e) l (fun _ => 0).
