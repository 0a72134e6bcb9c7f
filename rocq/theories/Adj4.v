(** The 4x4 adjugate in closed form (proof device: the model computes it through [m4_get]). *)
From Coq Require Import Bool NArith.
From Verif Require Import Scalar Types Transform3.
Section A.
Context {S : Type} {O : ScalarOps S}.
Local Open Scope s_scope.
Definition adj4 (m : Matrix4x4 S) : Matrix4x4 S :=
  mkM4
    ((sone) * (m4_5 m * m4_10 m * m4_15 m + m4_6 m * m4_11 m * m4_13 m + m4_7 m * m4_9 m * m4_14 m - m4_5 m * m4_11 m * m4_14 m - m4_6 m * m4_9 m * m4_15 m - m4_7 m * m4_10 m * m4_13 m))
    ((- sone) * (m4_1 m * m4_10 m * m4_15 m + m4_2 m * m4_11 m * m4_13 m + m4_3 m * m4_9 m * m4_14 m - m4_1 m * m4_11 m * m4_14 m - m4_2 m * m4_9 m * m4_15 m - m4_3 m * m4_10 m * m4_13 m))
    ((sone) * (m4_1 m * m4_6 m * m4_15 m + m4_2 m * m4_7 m * m4_13 m + m4_3 m * m4_5 m * m4_14 m - m4_1 m * m4_7 m * m4_14 m - m4_2 m * m4_5 m * m4_15 m - m4_3 m * m4_6 m * m4_13 m))
    ((- sone) * (m4_1 m * m4_6 m * m4_11 m + m4_2 m * m4_7 m * m4_9 m + m4_3 m * m4_5 m * m4_10 m - m4_1 m * m4_7 m * m4_10 m - m4_2 m * m4_5 m * m4_11 m - m4_3 m * m4_6 m * m4_9 m))
    ((- sone) * (m4_4 m * m4_10 m * m4_15 m + m4_6 m * m4_11 m * m4_12 m + m4_7 m * m4_8 m * m4_14 m - m4_4 m * m4_11 m * m4_14 m - m4_6 m * m4_8 m * m4_15 m - m4_7 m * m4_10 m * m4_12 m))
    ((sone) * (m4_0 m * m4_10 m * m4_15 m + m4_2 m * m4_11 m * m4_12 m + m4_3 m * m4_8 m * m4_14 m - m4_0 m * m4_11 m * m4_14 m - m4_2 m * m4_8 m * m4_15 m - m4_3 m * m4_10 m * m4_12 m))
    ((- sone) * (m4_0 m * m4_6 m * m4_15 m + m4_2 m * m4_7 m * m4_12 m + m4_3 m * m4_4 m * m4_14 m - m4_0 m * m4_7 m * m4_14 m - m4_2 m * m4_4 m * m4_15 m - m4_3 m * m4_6 m * m4_12 m))
    ((sone) * (m4_0 m * m4_6 m * m4_11 m + m4_2 m * m4_7 m * m4_8 m + m4_3 m * m4_4 m * m4_10 m - m4_0 m * m4_7 m * m4_10 m - m4_2 m * m4_4 m * m4_11 m - m4_3 m * m4_6 m * m4_8 m))
    ((sone) * (m4_4 m * m4_9 m * m4_15 m + m4_5 m * m4_11 m * m4_12 m + m4_7 m * m4_8 m * m4_13 m - m4_4 m * m4_11 m * m4_13 m - m4_5 m * m4_8 m * m4_15 m - m4_7 m * m4_9 m * m4_12 m))
    ((- sone) * (m4_0 m * m4_9 m * m4_15 m + m4_1 m * m4_11 m * m4_12 m + m4_3 m * m4_8 m * m4_13 m - m4_0 m * m4_11 m * m4_13 m - m4_1 m * m4_8 m * m4_15 m - m4_3 m * m4_9 m * m4_12 m))
    ((sone) * (m4_0 m * m4_5 m * m4_15 m + m4_1 m * m4_7 m * m4_12 m + m4_3 m * m4_4 m * m4_13 m - m4_0 m * m4_7 m * m4_13 m - m4_1 m * m4_4 m * m4_15 m - m4_3 m * m4_5 m * m4_12 m))
    ((- sone) * (m4_0 m * m4_5 m * m4_11 m + m4_1 m * m4_7 m * m4_8 m + m4_3 m * m4_4 m * m4_9 m - m4_0 m * m4_7 m * m4_9 m - m4_1 m * m4_4 m * m4_11 m - m4_3 m * m4_5 m * m4_8 m))
    ((- sone) * (m4_4 m * m4_9 m * m4_14 m + m4_5 m * m4_10 m * m4_12 m + m4_6 m * m4_8 m * m4_13 m - m4_4 m * m4_10 m * m4_13 m - m4_5 m * m4_8 m * m4_14 m - m4_6 m * m4_9 m * m4_12 m))
    ((sone) * (m4_0 m * m4_9 m * m4_14 m + m4_1 m * m4_10 m * m4_12 m + m4_2 m * m4_8 m * m4_13 m - m4_0 m * m4_10 m * m4_13 m - m4_1 m * m4_8 m * m4_14 m - m4_2 m * m4_9 m * m4_12 m))
    ((- sone) * (m4_0 m * m4_5 m * m4_14 m + m4_1 m * m4_6 m * m4_12 m + m4_2 m * m4_4 m * m4_13 m - m4_0 m * m4_6 m * m4_13 m - m4_1 m * m4_4 m * m4_14 m - m4_2 m * m4_5 m * m4_12 m))
    ((sone) * (m4_0 m * m4_5 m * m4_10 m + m4_1 m * m4_6 m * m4_8 m + m4_2 m * m4_4 m * m4_9 m - m4_0 m * m4_6 m * m4_9 m - m4_1 m * m4_4 m * m4_10 m - m4_2 m * m4_5 m * m4_8 m)).
Definition det4 (m : Matrix4x4 S) : S :=
  m4_0 m * m4_0 (adj4 m) + m4_1 m * m4_4 (adj4 m) + m4_2 m * m4_8 (adj4 m) + m4_3 m * m4_12 (adj4 m).
Lemma m4_adjugate_closed prof m : m4_adjugate prof m = Ret (adj4 m).
Proof. destruct prof as [[] []]; reflexivity. Qed.
Lemma m4_inverse_closed prof m :
  m4_inverse prof m = Ret (if det4 m != szero then Ok (m4_divs (adj4 m) (det4 m)) else Err).
Proof. unfold m4_inverse. rewrite m4_adjugate_closed. reflexivity. Qed.
End A.
