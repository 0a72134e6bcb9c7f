(** Specification vocabulary for C82 (undoing a transform in floating point): how far two real matrices are from being inverse to each other. *)
From Coq Require Import Reals.
From Verif Require Import SpecReal.
Local Open Scope R_scope.
(* entry by entry, the distance of the exact product G * F from the identity matrix: 0 if G is the exact inverse of F *)
Definition undo_defect (n : nat) (G F : matrix) : matrix := fun r c => Rabs (mat_mul n G F r c - mat_id r c).
