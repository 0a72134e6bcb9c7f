(** Bit-exact laws of scalar arithmetic used by the floating-point properties. *)
From Coq Require Import Bool ZArith Reals Lra Lia.
From Flocq Require Import Core.Zaux Core.Raux Core.Defs Core.Generic_fmt IEEE754.BinarySingleNaN.
From Verif Require Import Scalar Float XReal OrdLaws Arith.

Lemma fmul_comm {f} (x y : F f) : fmul x y = fmul y x.
Proof.
  unfold fmul. destruct x as [sx|sx| |sx mx ex Hx], y as [sy|sy| |sy my ey Hy]; simpl; try reflexivity;
    try (f_equal; apply xorb_comm).
  apply B2SF_inj. rewrite !B2SF_SF2B. now rewrite (xorb_comm sx sy), (Pos.mul_comm mx my), (Z.add_comm ex ey).
Qed.
Lemma fadd_comm {f} (x y : F f) : fadd x y = fadd y x.
Proof.
  unfold fadd. destruct x as [sx|sx| |sx mx ex Hx], y as [sy|sy| |sy my ey Hy]; simpl; try reflexivity.
  - destruct sx, sy; reflexivity.
  - destruct sx, sy; reflexivity.
  - rewrite (Z.min_comm ex ey). f_equal. apply Z.add_comm.
Qed.
Lemma xmul_comm x y : xmul x y = xmul y x.
Proof. destruct x, y; simpl; try reflexivity. now rewrite Rmult_comm. Qed.
Lemma xadd_comm x y : xadd x y = xadd y x.
Proof. destruct x, y; simpl; try reflexivity. now rewrite Rplus_comm. Qed.

Lemma smul_comm {A : arith} (x y : num A) : smul x y = smul y x.
Proof. destruct A; [apply fmul_comm | apply xmul_comm]. Qed.
Lemma sadd_comm {A : arith} (x y : num A) : sadd x y = sadd y x.
Proof. destruct A; [apply fadd_comm | apply xadd_comm]. Qed.
