(** Specification vocabulary for C35: which array slot a (row, column) pair of u32 addresses. *)
From Coq Require Import Bool NArith List.
From Verif Require Import Scalar Types.
Import ListNotations.

(* The slot of the row-major array of an n x n matrix that element access uses, None when the access panics:
   debug assertions reject every pair out of range; overflow checks reject n*row + col beyond u32, otherwise it wraps;
   the array access rejects slots from n*n on. *)
Definition slot (prof : profile) (n row col : N) : option N :=
  let i := (n * row + col)%N in
  if debug_assertions prof && ((n <=? row) || (n <=? col))%N then None
  else if overflow_checks prof && (2 ^ 32 <=? i)%N then None
  else let j := (i mod 2 ^ 32)%N in if (j <? n * n)%N then Some j else None.

(* the list with element i replaced *)
Definition replaced {T : Type} (l : list T) (i : nat) (x : T) : list T := firstn i l ++ x :: skipn (S i) l.
