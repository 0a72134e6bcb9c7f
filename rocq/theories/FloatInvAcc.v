(** Proofs: accuracy of computed inverses (C79). *)
From Coq Require Import Bool NArith ZArith Reals List Lra Lia.
From Flocq Require Import Core.Zaux Core.Raux Core.Defs Core.Generic_fmt Core.FLT IEEE754.BinarySingleNaN.
From Verif Require Import Scalar Types Vector2 Vector3 Point2 Point3 Ray BoundingBox2 BoundingBox3 Transform2 Transform3 Float
  XReal OrdLaws Arith SpecOrder SpecStruct SpecFloat SpecReal SpecErr SpecInv Adj4 ExactBase ExactMat FloatX XArith FloatLaws FloatTrans ErrBase FloatErr FloatInv ExVals.
Import ListNotations.
Local Open Scope R_scope.
Lemma sdiv_finite_den {A : arith} (x y : num A) : Finite (sdiv x y) -> real_of (sdiv x y) <> 0 -> seq y szero = false -> Finite y /\ real_of y <> 0.
Proof.
  intros F N S. pose proof (Finite_real _ F) as E.
  assert (NZ : tx y <> Fin 0). { intros Q. assert (Eqs y szero) as X by (apply Eqs_tx; rewrite tx_0; rewrite Q; split; [reflexivity | discriminate]). unfold Eqs in X. rewrite S in X. discriminate. }
  rewrite tx_div in E by assumption. apply xr_inv in E. destruct E as (r & E1 & E2).
  destruct (tx y) as [b| | |] eqn:Y.
  - apply Finite_intro in Y. destruct Y as [Fy V]. split; [assumption|]. rewrite V. congruence.
  - exfalso. destruct (tx x); cbn [xdiv] in E1; try discriminate. assert (r = 0) by congruence. subst r. destruct (arnd_err (A:=A) 0) as (d & e & _ & _ & _). apply N. rewrite E2. 
    unfold arnd. destruct A; [apply rnd_0 | reflexivity].
  - exfalso. destruct (tx x); cbn [xdiv] in E1; try discriminate. assert (r = 0) by congruence. subst r. apply N. rewrite E2. unfold arnd. destruct A; [apply rnd_0 | reflexivity].
  - exfalso. destruct (tx x); cbn [xdiv] in E1; discriminate.
Qed.
Lemma inv_entry {A : arith} (c det : num A) (C m e D E : R) (n : nat) :
  (Finite c -> Apx c C m n e) -> Finite (sdiv c det) -> Finite det -> real_of det <> 0 -> Rabs (real_of det - D) <= E -> E < Rabs D ->
  Rabs (real_of (sdiv c det) - C / D) <= quotient_error (((1 + unit_roundoff A) ^ S n - 1) * m + e * (1 + unit_roundoff A) ^ S n) E (min_subnormal A / 2) D (C / D).
Proof.
  intros H F Fd Nd HE LE. destruct (err_div c det F Fd Nd) as (Fc & d & h & Hd & Hh & V). destruct (H Fc) as (_ & E1 & M & P). rewrite V. unfold quotient_error.
  pose proof (u_pos (A:=A)) as U. pose proof (G_ge1 (A:=A) n) as G. set (x := real_of c) in *. set (y := real_of det) in *. set (g := (1 + unit_roundoff A) ^ n) in *. cbn [pow]. fold g.
  assert (D0 : D <> 0) by (intros ->; rewrite Rabs_R0 in LE; pose proof (Rabs_pos (y - 0)); lra).
  assert (W : Rabs (x * (1 + d) - C) <= ((1 + unit_roundoff A) * g - 1) * m + e * ((1 + unit_roundoff A) * g)).
  { assert (B : Rabs x <= g * m + e * g) by (replace x with ((x - C) + C) by ring; eapply Rle_trans; [apply Rabs_triang|]; lra).
    replace (x * (1 + d) - C) with ((x - C) + x * d) by ring. eapply Rle_trans; [apply Rabs_triang|]. rewrite Rabs_mult.
    assert (Rabs x * Rabs d <= (g * m + e * g) * unit_roundoff A) by (apply Rmult_le_compat; try apply Rabs_pos; assumption). lra. }
  assert (Y : Rabs D - E <= Rabs y) by (pose proof (Rabs_triang_inv D y); rewrite (Rabs_minus_sym D y) in *; lra).
  replace (x / y * (1 + d) + h - C / D) with (((x * (1 + d) - C) + C / D * (D - y)) / y + h) by (field; split; assumption).
  eapply Rle_trans; [apply Rabs_triang|]. apply Rplus_le_compat; [|assumption]. unfold Rdiv at 1. rewrite Rabs_mult, Rabs_inv.
  apply Rmult_le_compat; [apply Rabs_pos | left; apply Rinv_0_lt_compat; lra | | apply Rinv_le; lra].
  eapply Rle_trans; [apply Rabs_triang|]. rewrite (Rabs_mult (C / D)), (Rabs_minus_sym D y). apply Rplus_le_compat; [assumption|]. apply Rmult_le_compat_l; [apply Rabs_pos | assumption].
Qed.
Lemma quotient_error_mono (a b e h k d y : R) : a <= b -> h <= k -> e < Rabs d -> quotient_error a e h d y <= quotient_error b e k d y.
Proof. intros. unfold quotient_error. apply Rplus_le_compat; [|assumption]. apply Rmult_le_compat_r; [left; apply Rinv_0_lt_compat; lra | lra]. Qed.
Lemma inv_entry' {A : arith} (c det : num A) (C m e k D E N : R) (n : nat) : (n <= 15)%nat -> 2 * e <= k -> N = C / D ->
  (Finite c -> Apx c C m n e) -> Finite (sdiv c det) -> Finite det -> real_of det <> 0 -> Rabs (real_of det - D) <= E -> E < Rabs D ->
  Rabs (real_of (sdiv c det) - N) <= quotient_error (((1 + unit_roundoff A) ^ S n - 1) * m + k) E (min_subnormal A) D N.
Proof.
  intros Hn Hk -> H F Fd Nd HE LE. destruct (err_div c det F Fd Nd) as (Fc & _). destruct (H Fc) as (_ & _ & _ & P).
  eapply Rle_trans; [apply (inv_entry c det C m e D E n); assumption|]. apply quotient_error_mono; [| pose proof (t_pos (A:=A)); lra | assumption].
  apply Rplus_le_compat_l. pose proof (G_small' (A:=A) (S n) ltac:(lia)) as G. apply Rle_trans with (e * 2); [apply Rmult_le_compat_l; assumption | lra].
Qed.
Lemma det3_apx {A : arith} (m : Matrix3x3 (num A)) (B : R) : Forall (fun x => Rabs (real_of x) <= B) (m3_comps m) -> Finite (m3_det m) ->
  Rabs (real_of (m3_det m) - mat_det 3 (ent3 (RM3 m))) <= ((1 + unit_roundoff A) ^ 7 - 1) * mat_perm 3 (mat_abs (ent3 (RM3 m))) + 6 * min_subnormal A * (B + 1).
Proof.
  destruct m as [a0 a1 a2 a3 a4 a5 a6 a7 a8]. intros H F. set (m := mkM3 a0 a1 a2 a3 a4 a5 a6 a7 a8) in *. unfold m3_comps in H. cbn [m m3_0 m3_1 m3_2 m3_3 m3_4 m3_5 m3_6 m3_7 m3_8] in H.
  repeat match goal with H : Forall _ (_ :: _) |- _ => let F := fresh "L" in let H' := fresh "H" in inversion H as [|? ? F H']; subst; clear H; rename H' into H end. clear H.
  assert (Q : Apx (m3_det m) (mat_det 3 (ent3 (RM3 m))) (mat_perm 3 (mat_abs (ent3 (RM3 m)))) 7 (6 * (min_subnormal A / 2 * (B + 1)))).
  { assert (E : forall (x : num A) r r' k k' n e, Apx x r k n e -> r = r' -> k = k' -> Apx x r' k' n e) by (intros; subst; assumption).
    eapply (E (m3_det m)); [unfold m3_det; eapply Apx_six with (n := 2%nat); [exact F | intros Fx; apply Apx_tri; [exact Fx | assumption] ..] | |].
    - unfold m, RM3. mred. ring.
    - unfold m, RM3, mat_abs. cbv [mat_perm mat_minor sum_n ent3 nth Nat.ltb Nat.leb Nat.mul Nat.add m3_0 m3_1 m3_2 m3_3 m3_4 m3_5 m3_6 m3_7 m3_8]. ring. }
  apply (Apx_bound' _ _ _ _ _ (6 * min_subnormal A * (B + 1))) in Q; [exact Q | lia | lra].
Qed.
Lemma nz_div_den3 {A : arith} (m : Matrix3x3 (num A)) r c : (r < 3)%nat -> (c < 3)%nat -> MFinite3 (inv3 m) -> ent3 (RM3 (inv3 m)) r c <> 0 -> seq (m3_det m) szero = false ->
  Finite (m3_det m) /\ real_of (m3_det m) <> 0.
Proof.
  intros Hr Hc F N S. unfold MFinite3, m3_comps, inv3 in F. cbn [m3_new m3_0 m3_1 m3_2 m3_3 m3_4 m3_5 m3_6 m3_7 m3_8] in F.
  repeat match goal with H : Forall _ (_ :: _) |- _ => let F := fresh "L" in let H' := fresh "H" in inversion H as [|? ? F H']; subst; clear H; rename H' into H end. clear F.
  assert (r = 0 \/ r = 1 \/ r = 2)%nat as Kr by lia. assert (c = 0 \/ c = 1 \/ c = 2)%nat as Kc by lia.
  destruct Kr as [->|[->| ->]], Kc as [->|[->| ->]]; unfold ent3, RM3, inv3 in N; cbn [nth Nat.add Nat.mul m3_new m3_0 m3_1 m3_2 m3_3 m3_4 m3_5 m3_6 m3_7 m3_8] in N;
    (eapply sdiv_finite_den; [ | exact N | exact S]; assumption).
Qed.
Lemma C79_inverse_accurate_3x3_pf : forall (A : arith) (m i : Matrix3x3 (num A)) (B : R), Forall (fun x => Rabs (real_of x) <= B) (m3_comps m) ->
  m3_inverse m = Ok i -> MFinite3 i -> (exists r c, (r < 3)%nat /\ (c < 3)%nat /\ ent3 (RM3 i) r c <> 0) ->
  let M := ent3 (RM3 m) in let u := unit_roundoff A in let t := min_subnormal A in
  let E := ((1 + u) ^ 7 - 1) * mat_perm 3 (mat_abs M) + 6 * t * (B + 1) in E < Rabs (mat_det 3 M) ->
  exists N : matrix, mat_eq 3 (mat_mul 3 M N) mat_id /\ mat_eq 3 (mat_mul 3 N M) mat_id /\
  forall r c, (r < 3)%nat -> (c < 3)%nat ->
    Rabs (ent3 (RM3 i) r c - N r c) <= quotient_error (((1 + u) ^ 3 - 1) * cof_size 3 M r c + 2 * t) E t (mat_det 3 M) (N r c).
Proof.
  intros A m i B H I F (r0 & c0 & Hr0 & Hc0 & N0) M u t E HE. 
  assert (Z : seq (m3_det m) szero = false) by (unfold m3_inverse in I; destruct (seq (m3_det m) szero); [discriminate | reflexivity]).
  rewrite (inv3_ok m Z) in I. injection I as <-. destruct (nz_div_den3 m r0 c0 Hr0 Hc0 F N0 Z) as [Fd Nd].
  assert (D0 : mat_det 3 M <> 0).
  { intros Q. rewrite Q, Rabs_R0 in HE. pose proof (det3_apx m B H Fd) as X. fold M u t E in X. pose proof (Rabs_pos (real_of (m3_det m) - mat_det 3 M)). lra. }
  exists (ent3 (Rinv3 (RM3 m))). destruct (Rinv3_mul (RM3 m) D0) as [M1 M2].
  split; [now apply id_mul3_iff | split; [now apply id_mul3_iff|]].
  pose proof (det3_apx m B H Fd) as X. fold M u t E in X.
  assert (W : forall (r r' x y e d n : R), r <= quotient_error ((x - 1) * y + e) E t d n -> y = r' -> r <= quotient_error ((x - 1) * r' + e) E t d n) by (intros; subst; assumption).
  intros r c Hr Hc. assert (r = 0 \/ r = 1 \/ r = 2)%nat as Kr by lia. assert (c = 0 \/ c = 1 \/ c = 2)%nat as Kc by lia.
  unfold MFinite3, m3_comps, inv3 in F. cbn [m3_new m3_0 m3_1 m3_2 m3_3 m3_4 m3_5 m3_6 m3_7 m3_8] in F.
  repeat match goal with H : Forall _ (_ :: _) |- _ => let F := fresh "L" in let H' := fresh "H" in inversion H as [|? ? F H']; subst; clear H; rename H' into H end.
  destruct Kr as [->|[->| ->]], Kc as [->|[->| ->]]; unfold ent3 at 1 2 3; unfold RM3 at 1, Rinv3, inv3; cbn [nth Nat.add Nat.mul m3_new m3_0 m3_1 m3_2 m3_3 m3_4 m3_5 m3_6 m3_7 m3_8];
    (eapply W; [eapply (inv_entry' (A:=A) _ (m3_det m)) with (n := 2%nat) (e := t) (E := E); [lia | apply Rle_refl | | apply Apx_diff2 | assumption | assumption | assumption | exact X | exact HE] | ];
    [reflexivity | unfold cof_size, mat_del, M, RM3, mat_abs; cbv [pred mat_perm mat_minor sum_n ent3 nth Nat.ltb Nat.leb Nat.mul Nat.add m3_0 m3_1 m3_2 m3_3 m3_4 m3_5 m3_6 m3_7 m3_8]; ring]).
Qed.
Lemma det4_apx {A : arith} (m : Matrix4x4 (num A)) (B : R) : Forall (fun x => Rabs (real_of x) <= B) (m4_comps m) -> Finite (det4 m) ->
  Rabs (real_of (det4 m) - mat_det 4 (ent4 (RM4 m))) <= ((1 + unit_roundoff A) ^ 11 - 1) * mat_perm 4 (mat_abs (ent4 (RM4 m))) + min_subnormal A * (24 * B * (B + 1) + 4).
Proof.
  destruct m as [a0 a1 a2 a3 a4 a5 a6 a7 a8 a9 a10 a11 a12 a13 a14 a15]. intros H F. set (m := mkM4 a0 a1 a2 a3 a4 a5 a6 a7 a8 a9 a10 a11 a12 a13 a14 a15) in *. unfold m4_comps in H. cbn [m m4_0 m4_1 m4_2 m4_3 m4_4 m4_5 m4_6 m4_7 m4_8 m4_9 m4_10 m4_11 m4_12 m4_13 m4_14 m4_15] in H.
  repeat match goal with H : Forall _ (_ :: _) |- _ => let F := fresh "L" in let H' := fresh "H" in inversion H as [|? ? F H']; subst; clear H; rename H' into H end. clear H.
  pose proof (t_pos (A:=A)) as T. assert (B0 : 0 <= B) by (eapply Rle_trans; [apply Rabs_pos | exact L]).
  unfold det4, adj4, m in F. cbn [m4_0 m4_1 m4_2 m4_3 m4_4 m4_5 m4_6 m4_7 m4_8 m4_9 m4_10 m4_11 m4_12 m4_13 m4_14 m4_15] in F.
    set (e := 6 * (min_subnormal A / 2 * (B + 1))). assert (e0 : 0 <= e) by (unfold e; apply Rmult_le_pos; [lra | apply Rmult_le_pos; lra]).
    assert (Q : Apx (det4 m) (mat_det 4 (ent4 (RM4 m))) (mat_perm 4 (mat_abs (ent4 (RM4 m)))) 11 (4 * (e * B + min_subnormal A / 2))).
    { assert (E : forall (x : num A) r r' k k' n e, Apx x r k n e -> r = r' -> k = k' -> Apx x r' k' n e) by (intros; subst; assumption).
      assert (W : forall (x : num A) r m k e, (Finite x -> Apx x r m 8 e) -> Finite x -> Apx x r m (k + 8) e) by (intros x r m' k e' H Fx; apply Apx_weaken with 8%nat e'; [auto | lia | lra]).
      replace (4 * (e * B + min_subnormal A / 2)) with (e * B + min_subnormal A / 2 + (e * B + min_subnormal A / 2) + (e * B + min_subnormal A / 2) + (e * B + min_subnormal A / 2)) by ring.
      eapply (E (det4 m)); [unfold det4, adj4, m; cbn [m4_0 m4_1 m4_2 m4_3 m4_4 m4_5 m4_6 m4_7 m4_8 m4_9 m4_10 m4_11 m4_12 m4_13 m4_14 m4_15];
        apply Apx_add; [exact F | clear F; intros F; apply Apx_add; [exact F | clear F; intros F; apply Apx_add; [exact F | clear F; intros F | clear F; intros F] | clear F; apply (W _ _ _ 1%nat); intros F] | clear F; apply (W _ _ _ 2%nat); intros F];
        (eapply Apx_col; [exact F | assumption | clear F; intros F; first [apply Apx_by1 | apply Apx_bym1]; [exact F | clear F; intros F; apply Apx_cof; assumption] | assumption]) | |].
      - unfold m, RM4. mred. ring.
      - unfold m, RM4, mat_abs. cbv [mat_perm mat_minor sum_n ent4 nth Nat.ltb Nat.leb Nat.mul Nat.add m4_0 m4_1 m4_2 m4_3 m4_4 m4_5 m4_6 m4_7 m4_8 m4_9 m4_10 m4_11 m4_12 m4_13 m4_14 m4_15]. ring. }
    apply (Apx_bound' _ _ _ _ _ (min_subnormal A * (24 * B * (B + 1) + 4))) in Q; [exact Q | lia | unfold e; lra].
Qed.
Lemma nz_div_den4 {A : arith} (m : Matrix4x4 (num A)) (a : Matrix4x4 (num A)) (d : num A) r c : (r < 4)%nat -> (c < 4)%nat -> MFinite4 (m4_divs a d) -> ent4 (RM4 (m4_divs a d)) r c <> 0 -> seq d szero = false ->
  Finite d /\ real_of d <> 0.
Proof.
  destruct a as [a0 a1 a2 a3 a4 a5 a6 a7 a8 a9 a10 a11 a12 a13 a14 a15]. intros Hr Hc F N S. unfold MFinite4, m4_comps, m4_divs in F. cbn [m4_0 m4_1 m4_2 m4_3 m4_4 m4_5 m4_6 m4_7 m4_8 m4_9 m4_10 m4_11 m4_12 m4_13 m4_14 m4_15] in F.
  repeat match goal with H : Forall _ (_ :: _) |- _ => let F := fresh "L" in let H' := fresh "H" in inversion H as [|? ? F H']; subst; clear H; rename H' into H end. clear F.
  assert (r = 0 \/ r = 1 \/ r = 2 \/ r = 3)%nat as Kr by lia. assert (c = 0 \/ c = 1 \/ c = 2 \/ c = 3)%nat as Kc by lia.
  destruct Kr as [->|[->|[->| ->]]], Kc as [->|[->|[->| ->]]]; unfold ent4, RM4, m4_divs in N; cbn [nth Nat.add Nat.mul m4_0 m4_1 m4_2 m4_3 m4_4 m4_5 m4_6 m4_7 m4_8 m4_9 m4_10 m4_11 m4_12 m4_13 m4_14 m4_15] in N;
    (eapply sdiv_finite_den; [ | exact N | exact S]; assumption).
Qed.
Lemma inv4_acc {A : arith} (m : Matrix4x4 (num A)) (B D E : R) : Forall (fun x => Rabs (real_of x) <= B) (m4_comps m) ->
  let i := m4_divs (adj4 m) (det4 m) in MFinite4 i -> Finite (det4 m) -> real_of (det4 m) <> 0 -> Rabs (real_of (det4 m) - D) <= E -> E < Rabs D -> D = mat_det 4 (ent4 (RM4 m)) ->
  forall r c, (r < 4)%nat -> (c < 4)%nat ->
    Rabs (ent4 (RM4 i) r c - ent4 (Rinv4 (RM4 m)) r c) <=
    quotient_error (((1 + unit_roundoff A) ^ 8 - 1) * cof_size 4 (ent4 (RM4 m)) r c + 6 * min_subnormal A * (B + 1)) E (min_subnormal A) D (ent4 (Rinv4 (RM4 m)) r c).
Proof.
  intros H i F Fd Nd X HE HD. subst i. set (u := unit_roundoff A) in *. set (t := min_subnormal A) in *.
  assert (W : forall (r r' x y e d n : R), r <= quotient_error ((x - 1) * y + e) E t d n -> y = r' -> r <= quotient_error ((x - 1) * r' + e) E t d n) by (intros; subst; assumption).
  set (d := det4 m) in *. clearbody d. unfold Rinv4. rewrite <- HD. clear HD. 
  destruct m as [a0 a1 a2 a3 a4 a5 a6 a7 a8 a9 a10 a11 a12 a13 a14 a15]. unfold m4_comps in H. cbn [m4_0 m4_1 m4_2 m4_3 m4_4 m4_5 m4_6 m4_7 m4_8 m4_9 m4_10 m4_11 m4_12 m4_13 m4_14 m4_15] in H.
  unfold MFinite4, m4_comps, m4_divs, adj4 in F. cbn [m4_0 m4_1 m4_2 m4_3 m4_4 m4_5 m4_6 m4_7 m4_8 m4_9 m4_10 m4_11 m4_12 m4_13 m4_14 m4_15] in F.
  repeat match goal with H : Forall _ (_ :: _) |- _ => let F := fresh "L" in let H' := fresh "H" in inversion H as [|? ? F H']; subst; clear H; rename H' into H end.
  intros r c Hr Hc. assert (r = 0 \/ r = 1 \/ r = 2 \/ r = 3)%nat as Kr by lia. assert (c = 0 \/ c = 1 \/ c = 2 \/ c = 3)%nat as Kc by lia.
  destruct Kr as [->|[->|[->| ->]]], Kc as [->|[->|[->| ->]]]; unfold ent4 at 1 2 4; unfold RM4 at 1, m4_divs, adj4; cbn [nth Nat.add Nat.mul m4_0 m4_1 m4_2 m4_3 m4_4 m4_5 m4_6 m4_7 m4_8 m4_9 m4_10 m4_11 m4_12 m4_13 m4_14 m4_15];
    (eapply W; [eapply (inv_entry' (A:=A) _ d) with (n := 7%nat) (e := 6 * (t / 2 * (B + 1))) (E := E); [lia | lra | reflexivity |
       intros Fx; first [apply Apx_by1 | apply Apx_bym1]; [exact Fx | clear Fx; intros Fx; apply Apx_cof; [assumption..|exact Fx]] | assumption | assumption | assumption | exact X | exact HE] |
     unfold cof_size, mat_del, RM4, mat_abs; cbv [pred mat_perm mat_minor sum_n ent4 nth Nat.ltb Nat.leb Nat.mul Nat.add m4_0 m4_1 m4_2 m4_3 m4_4 m4_5 m4_6 m4_7 m4_8 m4_9 m4_10 m4_11 m4_12 m4_13 m4_14 m4_15]; ring]).
Qed.
Lemma C79_inverse_accurate_4x4_pf : forall (A : arith) (prof : profile) (m i : Matrix4x4 (num A)) (B : R), Forall (fun x => Rabs (real_of x) <= B) (m4_comps m) ->
  m4_inverse prof m = Ret (Ok i) -> MFinite4 i -> (exists r c, (r < 4)%nat /\ (c < 4)%nat /\ ent4 (RM4 i) r c <> 0) ->
  let M := ent4 (RM4 m) in let u := unit_roundoff A in let t := min_subnormal A in
  let E := ((1 + u) ^ 11 - 1) * mat_perm 4 (mat_abs M) + t * (24 * B * (B + 1) + 4) in E < Rabs (mat_det 4 M) ->
  exists N : matrix, mat_eq 4 (mat_mul 4 M N) mat_id /\ mat_eq 4 (mat_mul 4 N M) mat_id /\
  forall r c, (r < 4)%nat -> (c < 4)%nat ->
    Rabs (ent4 (RM4 i) r c - N r c) <= quotient_error (((1 + u) ^ 8 - 1) * cof_size 4 M r c + 6 * t * (B + 1)) E t (mat_det 4 M) (N r c).
Proof.
  intros A prof m i B H I F (r0 & c0 & Hr0 & Hc0 & N0) M u t E HE.
  assert (Z : seq (det4 m) szero = false) by (rewrite m4_inverse_closed in I; destruct (seq (det4 m) szero); [discriminate | reflexivity]).
  rewrite (inv4_ok prof m Z) in I. injection I as <-. destruct (nz_div_den4 m _ _ r0 c0 Hr0 Hc0 F N0 Z) as [Fd Nd].
  pose proof (det4_apx m B H Fd) as X. fold M u t E in X.
  assert (D0 : mat_det 4 M <> 0).
  { intros Q. rewrite Q, Rabs_R0 in HE. pose proof (Rabs_pos (real_of (det4 m) - mat_det 4 M)). lra. }
  exists (ent4 (Rinv4 (RM4 m))). destruct (Rinv4_mul (RM4 m) D0) as [M1 M2].
  split; [now apply id_mul4_iff | split; [now apply id_mul4_iff|]].
  intros r c Hr Hc. exact (inv4_acc m B _ E H F Fd Nd X HE eq_refl r c Hr Hc).
Qed.
Lemma nz_real {A : arith} (x : num A) : Finite x -> seq x szero = false -> real_of x <> 0.
Proof.
  intros F S Q. pose proof (Finite_real _ F) as E. rewrite Q in E. assert (Eqs x szero) as X by (apply Eqs_tx; rewrite tx_0, E; split; [reflexivity | discriminate]). unfold Eqs in X. rewrite S in X. discriminate.
Qed.
Definition inv_ex3 : Matrix3x3 (num A64) := mkM3 (d64 2 0) (d64 7 0) (nd64 3 0) (d64 1 0) (d64 5 0) (d64 0 0) (d64 4 0) (nd64 9 0) (d64 6 0).
Definition inv_ex4 : Matrix4x4 (num A64) := mkM4 (d64 2 0) (d64 7 0) (nd64 3 0) (d64 5 0) (d64 1 0) (d64 5 0) (d64 0 0) (nd64 2 0) (d64 4 0) (nd64 9 0) (d64 6 0) (d64 1 0) (d64 0 0) (d64 0 0) (d64 0 0) (d64 1 0).
Lemma pow_small (A : arith) n : (n <= 11)%nat -> (1 + unit_roundoff A) ^ n - 1 <= / 1000000.
Proof.
  intros H. pose proof (u_pos (A:=A)) as U. apply Rle_trans with ((1 + / 16777216) ^ 11 - 1).
  - apply Rplus_le_compat_r. apply Rle_trans with ((1 + unit_roundoff A) ^ 11); [apply Rle_pow; [lra | assumption] | apply pow_incr; lra].
  - cbn. lra.
Qed.
Lemma t_small (A : arith) : min_subnormal A <= / 1000000.
Proof. pose proof (u_pos (A:=A)). pose proof (t_le_uuu (A:=A)). nra. Qed.
