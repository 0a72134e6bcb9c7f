(** The arithmetics at which the generic code is studied: f32 or f64 on some platform, or exact reals. *)
From Coq Require Import Reals.
From Verif Require Import Scalar Float XReal OrdLaws.

Inductive arith :=
| IEEE (f : format) (P : platform f)
| EXACT.

Definition num (A : arith) : Type := match A with IEEE f _ => F f | EXACT => xreal end.

Global Instance num_ops (A : arith) : ScalarOps (num A) :=
  match A with IEEE f P => float_ops f P | EXACT => xreal_ops end.

Lemma num_OrdLaws (A : arith) : OrdLaws (num_ops A).
Proof. destruct A; [apply float_OrdLaws | apply xreal_OrdLaws]. Qed.
