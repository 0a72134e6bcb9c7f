(** Model of src/scalar.rs, src/minmax.rs, src/length.rs, src/distance.rs (scalar part)
    and of the part of num-traits [Float]/[NumAssign] that the crate calls. *)
From Coq Require Import Bool NArith.

(** Operations of the trait [Scalar: Float + NumAssign + ScalarConst] (src/scalar.rs:20-29).
    Operations only: the class carries no law.  [x > y] and [x >= y] of PartialOrd are
    [slt y x] and [sle y x]; [x != y] is [negb (seq x y)].
    The compound assignments of NumAssign ([x += y] etc.) store [sadd x y] etc. *)
Class ScalarOps (S : Type) := {
  szero : S;                      (* num_traits Zero::zero *)
  sone : S;                       (* num_traits One::one *)
  shalf : S;                      (* src/scalar.rs:25,39-41,51-53  ScalarConst::half *)
  stwo : S;                       (* src/scalar.rs:28,44-46,56-58  ScalarConst::two *)
  sinf : S;                       (* Float::infinity *)
  sninf : S;                      (* Float::neg_infinity *)
  sadd : S -> S -> S;
  ssub : S -> S -> S;
  smul : S -> S -> S;
  sdiv : S -> S -> S;
  sneg : S -> S;
  sabs : S -> S;
  ssqrt : S -> S;
  sfloor : S -> S;
  sceil : S -> S;
  sround : S -> S;
  strunc : S -> S;
  sfract : S -> S;
  srecip : S -> S;
  sfmin : S -> S -> S;            (* Float::min: ignores a NaN operand *)
  sfmax : S -> S -> S;            (* Float::max: ignores a NaN operand *)
  ssin_cos : S -> S * S;
  slt : S -> S -> bool;
  sle : S -> S -> bool;
  seq : S -> S -> bool;
  snan : S -> bool                (* Float::is_nan; used by specifications only *)
}.

Declare Scope s_scope.
Delimit Scope s_scope with s.
Infix "+" := sadd : s_scope.
Infix "-" := ssub : s_scope.
Infix "*" := smul : s_scope.
Infix "/" := sdiv : s_scope.
Notation "- x" := (sneg x) : s_scope.
Infix "<" := slt : s_scope.
Infix "<=" := sle : s_scope.
Notation "x > y" := (slt y x) (only parsing) : s_scope.
Notation "x >= y" := (sle y x) (only parsing) : s_scope.
Infix "==" := seq (at level 70, no associativity) : s_scope.
Notation "x != y" := (negb (seq x y)) (at level 70, no associativity) : s_scope.

Section ScalarFns.
Context {S : Type} {O : ScalarOps S}.
Local Open Scope s_scope.

(* src/scalar.rs:61-71  impl MinMax for S.  [S::min(self, s)] resolves to Float::min. *)
Definition s_min (self s : S) : S := sfmin self s.
Definition s_max (self s : S) : S := sfmax self s.

(* src/scalar.rs:73-80  impl Length for S *)
Definition s_length (self : S) : S := sabs self.

(* src/scalar.rs:82-102  impl RelativeLength for S *)
Definition s_is_shorter_than (self s : S) : bool := s_length self < s_length s.
Definition s_is_longer_than (self s : S) : bool := s_length self > s_length s.
Definition s_shortest (self s : S) : S := if s_is_shorter_than self s then self else s.
Definition s_longest (self s : S) : S := if s_is_longer_than self s then self else s.

(* src/scalar.rs:104-111  impl Distance for S *)
Definition s_distance (self s : S) : S := s_length (s - self).

(* src/scalar.rs:113-133  impl RelativeDistance for S *)
Definition s_is_closer_to (self s1 s2 : S) : bool := s_distance self s1 < s_distance self s2.
Definition s_is_farther_from (self s1 s2 : S) : bool := s_distance self s1 > s_distance self s2.
Definition s_closest (self s1 s2 : S) : S := if s_is_closer_to self s1 s2 then s1 else s2.
Definition s_farthest (self s1 s2 : S) : S := if s_is_farther_from self s1 s2 then s1 else s2.
End ScalarFns.

(** ** Panics and build profiles (shared by index-taking functions) *)

(* A computation either returns or panics. *)
Inductive outcome (A : Type) : Type :=
| Ret (a : A)
| Panic.
Arguments Ret {A} a.
Arguments Panic {A}.

Definition obind {A B} (o : outcome A) (f : A -> outcome B) : outcome B :=
  match o with Ret a => f a | Panic => Panic end.
Notation "'let*' x := e 'in' f" := (obind e (fun x => f))
  (at level 200, x name, e at level 100, f at level 200).

(* Cargo profile settings that change the meaning of the modelled code:
   debug_assertions enables [debug_assert!], overflow_checks makes u32 arithmetic overflow panic
   (otherwise it wraps modulo 2^32).  Cargo.toml sets neither: dev = both on, release = both off. *)
Record profile := { debug_assertions : bool; overflow_checks : bool }.

Definition u32_modulus : N := 4294967296%N.

(* u32 [*] and [+] *)
Definition u32_mul (prof : profile) (a b : N) : outcome N :=
  let r := (a * b)%N in
  if (r <? u32_modulus)%N then Ret r
  else if overflow_checks prof then Panic else Ret (r mod u32_modulus)%N.
Definition u32_add (prof : profile) (a b : N) : outcome N :=
  let r := (a + b)%N in
  if (r <? u32_modulus)%N then Ret r
  else if overflow_checks prof then Panic else Ret (r mod u32_modulus)%N.

(* debug_assert!(cond) *)
Definition debug_assert (prof : profile) (cond : bool) : outcome unit :=
  if debug_assertions prof && negb cond then Panic else Ret tt.

(* src/transform.rs:26  struct NonInvertibleMatrixError; Result<T, NonInvertibleMatrixError> *)
Inductive result (A : Type) : Type :=
| Ok (a : A)
| Err.
Arguments Ok {A} a.
Arguments Err {A}.
