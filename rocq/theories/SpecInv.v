(** Specification vocabulary for C79 (accuracy of computed inverses). *)
From Coq Require Import ZArith Reals.
From Verif Require Import SpecReal SpecErr.
Local Open Scope R_scope.

(* the matrix m without row r and column c *)
Definition mat_del (m : matrix) (r c : nat) : matrix :=
  fun i j => m (if Nat.ltb i r then i else S i) (if Nat.ltb j c then j else S j).
(* the size of the terms added up in the (r, c) element of the adjugate of an n by n matrix: the expansion of the
   determinant left when row c and column r are deleted, with absolute values and every sign + *)
Definition cof_size (n : nat) (m : matrix) (r c : nat) : R := mat_perm (pred n) (mat_abs (mat_del m c r)).
(* how far |x - y| may be when x is computed as (cofactor / determinant) with cofactor error e1, determinant error e2, and
   underflow h in the division: y is the exact quotient, d the exact determinant *)
Definition quotient_error (e1 e2 h d y : R) : R := (e1 + Rabs y * e2) / (Rabs d - e2) + h.
