(** Proofs: axis permutations and axis-aligned cameras are exact (C88). *)
From Coq Require Import Bool NArith ZArith Reals List Lra Lia.
From Flocq Require Import Core.Zaux Core.Raux Core.Defs.
From Verif Require Import Scalar Types Vector2 Vector3 Point2 Point3 Transform2 Transform3 Adj4 Float
  XReal OrdLaws Arith SpecOrder SpecFloat SpecReal SpecErr SpecPerm OrderProofs FloatX XArith FloatLaws ErrBase FloatErr FloatInv FloatTrans FloatAxis ExVals ExactBase.
Import ListNotations.
Local Open Scope R_scope.
(* symbolic scalars: zero, a signed atom (atom 0 is the number 1), or unknown *)
Inductive sv := Z0 | At (n : bool) (k : nat) | Bad.
Definition vneg (a : sv) : sv := match a with At n k => At (negb n) k | _ => a end.
Definition vmul (a b : sv) : sv :=
  match a, b with
  | Bad, _ => Bad | _, Bad => Bad | Z0, _ => Z0 | _, Z0 => Z0
  | At n 0, At m k => At (xorb n m) k | At n k, At m 0 => At (xorb n m) k | _, _ => Bad
  end.
Definition vadd (a b : sv) : sv := match a, b with Z0, x => x | x, Z0 => x | _, _ => Bad end.
Definition vdiv (a b : sv) : sv := match b with At n 0 => if n then vneg a else a | _ => Bad end.
#[local] Instance sv_ops : ScalarOps sv := {|
  szero := Z0; sone := At false 0; shalf := Bad; stwo := Bad; sinf := Bad; sninf := Bad;
  sadd := vadd; ssub := fun a b => vadd a (vneg b); smul := vmul; sdiv := vdiv; sneg := vneg;
  sabs := fun _ => Bad; ssqrt := fun _ => Bad; sfloor := fun _ => Bad; sceil := fun _ => Bad; sround := fun _ => Bad; strunc := fun _ => Bad; sfract := fun _ => Bad; srecip := fun _ => Bad;
  sfmin := fun _ _ => Bad; sfmax := fun _ _ => Bad; ssin_cos := fun _ => (Bad, Bad); slt := fun _ _ => false; sle := fun _ _ => false; seq := fun _ _ => false; snan := fun _ => false |}.
Section R.
Context {A : arith} (env : nat -> R) (env0 : env 0%nat = 1) (envr : forall k, xr A (Fin (env k)) = Fin (env k)).
Implicit Types x y : num A.
Definition sg (n : bool) (r : R) : R := if n then - r else r.
Definition den (a : sv) : R := match a with At n k => sg n (env k) | _ => 0 end.
Definition Rel (a : sv) x : Prop := match a with Bad => True | _ => tx x = Fin (den a) end.
Lemma Rel_tx a x : Rel a x -> a <> Bad -> tx x = Fin (den a).
Proof. destruct a; intros; try assumption. congruence. Qed.
Lemma den_xr a : xr A (Fin (den a)) = Fin (den a).
Proof. destruct a as [|[] k|]; cbn [den sg]; rewrite <- ?(tx_0 (A:=A)), ?xr_txx; try reflexivity; [|apply envr]. change (Fin (- env k)) with (xneg (Fin (env k))). now rewrite xr_neg, envr. Qed.
Lemma Rel_zero : Rel Z0 szero.
Proof. exact tx_0. Qed.
Lemma Rel_one : Rel (At false 0) sone.
Proof. cbn. rewrite env0. exact tx_1. Qed.
Lemma Rel_neg a x : Rel a x -> Rel (vneg a) (sneg x).
Proof. destruct a as [|[] k|]; cbn; try tauto; rewrite tx_neg; intros ->; cbn; f_equal; lra. Qed.
Lemma Rel_mul a b x y : Rel a x -> Rel b y -> Rel (vmul a b) (smul x y).
Proof.
  destruct a as [|n k|]; [| |intros; exact I]; (destruct b as [|m l|]; [| |intros; destruct k || idtac; exact I || (destruct k; exact I)]); cbn [Rel]; intros X Y.
  - cbn. rewrite tx_mul, X, Y. cbn. rewrite Rmult_0_l. apply (den_xr Z0).
  - cbn. rewrite tx_mul, X, Y. cbn. rewrite Rmult_0_l. apply (den_xr Z0).
  - destruct k; cbn; rewrite tx_mul, X, Y; cbn; rewrite Rmult_0_r; apply (den_xr Z0).
  - assert (K : forall a, den a = sg n (env k) * sg m (env l) -> tx (smul x y) = Fin (den a)).
    { intros a E. rewrite tx_mul, X, Y. cbn [xmul den]. rewrite <- E. apply den_xr. }
    destruct k as [|k]; [|destruct l as [|l]; [|exact I]]; cbn [vmul Rel]; apply K; cbn [den]; rewrite env0; destruct n, m; cbn; lra.
Qed.
Lemma Rel_add a b x y : Rel a x -> Rel b y -> Rel (vadd a b) (sadd x y).
Proof.
  destruct a as [|n k|]; [| |destruct b; intros; exact I]; (destruct b as [|m l|]; [| |intros; exact I]); cbn [vadd]; try (intros; exact I); intros X Y; cbn [Rel] in *.
  - rewrite tx_add, X, Y. cbn [den]. rewrite xadd_0_r. apply (den_xr Z0).
  - rewrite tx_add, X, Y. rewrite xadd_0_l. apply (den_xr (At m l)).
  - rewrite tx_add, X, Y. rewrite xadd_0_r. apply (den_xr (At n k)).
Qed.
Lemma Rel_sub a b x y : Rel a x -> Rel b y -> Rel (vadd a (vneg b)) (ssub x y).
Proof.
  intros X Y. pose proof (Rel_add _ _ _ _ X (Rel_neg _ _ Y)) as H. destruct (vadd a (vneg b)); cbn [Rel] in *; try exact I; rewrite sub_add; exact H.
Qed.
Lemma Rel_div a b x y : Rel a x -> Rel b y -> Rel (vdiv a b) (sdiv x y).
Proof.
  intros X. destruct b as [|n [|k]|]; try (intros; exact I). cbn [vdiv Rel]. intros Y. assert (N : den (At n 0) <> 0) by (cbn; rewrite env0; destruct n; cbn; lra).
  assert (K : forall r, tx x = Fin r -> xr A (Fin r) = Fin r -> tx (sdiv x y) = Fin (sg n r)).
  { intros r E Q. rewrite tx_div by (rewrite Y; apply Fin_neq; exact N). rewrite E, Y. cbn [xdiv]. rewrite Req_bool_false by exact N. cbn [den]. rewrite env0.
    destruct n; cbn [sg]. - replace (r / Ropp 1) with (- r) by field. change (Fin (- r)) with (xneg (Fin r)). now rewrite xr_neg, Q. - unfold Rdiv. now rewrite Rinv_1, Rmult_1_r. }
  destruct a as [|m k|]; [| |destruct n; exact I].
  - specialize (K 0 X (den_xr Z0)). destruct n; cbn in *; rewrite K; f_equal; lra.
  - specialize (K _ X (den_xr (At m k))). destruct n, m; cbn in *; rewrite K; f_equal; lra.
Qed.
Definition RelM3 (a : Matrix3x3 sv) (m : Matrix3x3 (num A)) : Prop :=
  Rel (m3_0 a) (m3_0 m) /\ Rel (m3_1 a) (m3_1 m) /\ Rel (m3_2 a) (m3_2 m) /\ Rel (m3_3 a) (m3_3 m) /\ Rel (m3_4 a) (m3_4 m) /\ Rel (m3_5 a) (m3_5 m) /\ Rel (m3_6 a) (m3_6 m) /\ Rel (m3_7 a) (m3_7 m) /\ Rel (m3_8 a) (m3_8 m).
Definition RelM4 (a : Matrix4x4 sv) (m : Matrix4x4 (num A)) : Prop :=
  Rel (m4_0 a) (m4_0 m) /\ Rel (m4_1 a) (m4_1 m) /\ Rel (m4_2 a) (m4_2 m) /\ Rel (m4_3 a) (m4_3 m) /\ Rel (m4_4 a) (m4_4 m) /\ Rel (m4_5 a) (m4_5 m) /\ Rel (m4_6 a) (m4_6 m) /\ Rel (m4_7 a) (m4_7 m) /\ Rel (m4_8 a) (m4_8 m) /\ Rel (m4_9 a) (m4_9 m) /\ Rel (m4_10 a) (m4_10 m) /\ Rel (m4_11 a) (m4_11 m) /\ Rel (m4_12 a) (m4_12 m) /\ Rel (m4_13 a) (m4_13 m) /\ Rel (m4_14 a) (m4_14 m) /\ Rel (m4_15 a) (m4_15 m).
Ltac rel := repeat first [assumption | apply Rel_one | apply Rel_zero | apply (Rel_add _ _ _ _) | apply (Rel_sub _ _ _ _) | apply (Rel_mul _ _ _ _) | apply (Rel_neg _ _) | apply (Rel_div _ _ _ _)].
Ltac splits := lazymatch goal with |- _ /\ _ => split; splits | |- _ => idtac end.
Lemma adj4_rel a m : RelM4 a m -> RelM4 (adj4 a) (adj4 m).
Proof. intros H. unfold RelM4 in H. decompose [and] H. clear H. unfold RelM4, adj4. cbn [m4_0 m4_1 m4_2 m4_3 m4_4 m4_5 m4_6 m4_7 m4_8 m4_9 m4_10 m4_11 m4_12 m4_13 m4_14 m4_15]. splits; rel. Qed.
Lemma det4_rel a m : RelM4 a m -> Rel (det4 a) (det4 m).
Proof. intros H. pose proof (adj4_rel a m H) as G. unfold RelM4 in H, G. decompose [and] H. decompose [and] G. clear H G. unfold det4. rel. Qed.
Lemma inv4_rel prof a m b : RelM4 a m -> det4 a = At b 0 -> exists m', m4_inverse prof m = Ret (Ok m') /\ RelM4 (m4_divs (adj4 a) (det4 a)) m'.
Proof.
  intros H D. exists (m4_divs (adj4 m) (det4 m)). pose proof (det4_rel a m H) as DR. rewrite m4_inverse_closed. split.
  - rewrite D in DR. cbn [Rel den] in DR. rewrite env0 in DR. assert (Q : seq (det4 m) szero = false); [|rewrite Q; reflexivity].
    rewrite tx_eq, DR, tx_0. apply xeq_fin_false. destruct b; cbn; lra.
  - pose proof (adj4_rel a m H) as G. unfold RelM4 in G. decompose [and] G. clear G H D. unfold RelM4, m4_divs, m4_map, m4_new. cbn [m4_0 m4_1 m4_2 m4_3 m4_4 m4_5 m4_6 m4_7 m4_8 m4_9 m4_10 m4_11 m4_12 m4_13 m4_14 m4_15]. splits; rel.
Qed.
Lemma inv3_rel a m b : RelM3 a m -> m3_det a = At b 0 -> exists m' a', m3_inverse m = Ok m' /\ m3_inverse a = Ok a' /\ RelM3 a' m'.
Proof.
  intros H D. unfold RelM3 in H. decompose [and] H. clear H. assert (DR : Rel (m3_det a) (m3_det m)) by (unfold m3_det; rel). unfold m3_inverse. rewrite D in *. cbn [Rel den] in DR. pose proof DR as DR'. rewrite env0 in DR'.
  assert (Q : seq (m3_det m) szero = false) by (rewrite tx_eq, DR', tx_0; apply xeq_fin_false; destruct b; cbn; lra). rewrite Q. cbn [negb seq sv_ops].
  do 2 eexists. split; [reflexivity|]. split; [reflexivity|]. unfold RelM3, m3_new. cbn [m3_0 m3_1 m3_2 m3_3 m3_4 m3_5 m3_6 m3_7 m3_8].
  assert (R0 : Rel (At b 0) (m3_det m)) by exact DR. splits; rel.
Qed.

Definition row3 (a : Matrix4x4 sv) (i : Dimension3) : sv := vadd (vadd (vmul (elin3 a i D3X) (At false 4)) (vmul (elin3 a i D3Y) (At false 5))) (vmul (elin3 a i D3Z) (At false 6)).
Definition row2 (a : Matrix3x3 sv) (i : Dimension2) : sv := vadd (vmul (elin2 a i D2X) (At false 4)) (vmul (elin2 a i D2Y) (At false 5)).
Definition Atom3 (f : Dimension3 -> num A) : Prop := Rel (At false 4) (f D3X) /\ Rel (At false 5) (f D3Y) /\ Rel (At false 6) (f D3Z).
Definition Atom2 (f : Dimension2 -> num A) : Prop := Rel (At false 4) (f D2X) /\ Rel (At false 5) (f D2Y).
Lemma mul_vector_rel3 a m v i : RelM4 a m -> Atom3 (vcoord3 v) -> Rel (row3 a i) (vcoord3 (m4_mul_vector m v) i).
Proof. intros H (P1 & P2 & P3). unfold RelM4 in H. decompose [and] H. clear H. cbn [vcoord3] in *. unfold m4_mul_vector, v3_new. destruct i; cbn [vcoord3 v3x v3y v3z row3 elin3]; unfold row3; cbn [elin3]; rel. Qed.
Lemma mul_vector_rel2 a m v i : RelM3 a m -> Atom2 (vcoord2 v) -> Rel (row2 a i) (vcoord2 (m3_mul_vector m v) i).
Proof. intros H (P1 & P2). unfold RelM3 in H. decompose [and] H. clear H. cbn [vcoord2] in *. unfold m3_mul_vector, v2_new. destruct i; cbn [vcoord2 v2x v2y row2 elin2]; unfold row2; cbn [elin2]; rel. Qed.
Lemma div_w (x w : num A) r : tx w = Fin 1 -> tx x = xr A (Fin r) -> tx (sdiv x w) = xr A (Fin r).
Proof.
  intros W X. rewrite tx_div by (rewrite W; apply Fin_neq; lra). rewrite W. assert (E : xdiv (tx x) (Fin 1) = tx x).
  { destruct (tx x) as [q| | |]; cbn [xdiv]; try reflexivity; rewrite ?Req_bool_false, ?Rlt_bool_false by lra; try reflexivity. f_equal. field. }
  now rewrite E, xr_txx.
Qed.
Lemma mul_point_rel3 a m p i : RelM4 a m -> Atom3 (coord3 p) -> m4_12 a = Z0 -> m4_13 a = Z0 -> m4_14 a = Z0 -> m4_15 a = At false 0 -> row3 a i <> Bad -> etr3 a i <> Bad ->
  tx (coord3 (m4_mul_point m p) i) = xr A (Fin (den (row3 a i) + den (etr3 a i))).
Proof.
  intros H (P1 & P2 & P3) W1 W2 W3 W4 B1 B2. unfold RelM4 in H. decompose [and] H. clear H. cbn [coord3] in *.
  assert (W : Rel (vadd (vadd (vadd (vmul (m4_12 a) (At false 4)) (vmul (m4_13 a) (At false 5))) (vmul (m4_14 a) (At false 6))) (m4_15 a)) (sadd (sadd (sadd (smul (m4_12 m) (p3x p)) (smul (m4_13 m) (p3y p))) (smul (m4_14 m) (p3z p))) (m4_15 m))) by rel.
  rewrite W1, W2, W3, W4 in W. cbn in W. rewrite env0 in W. unfold m4_mul_point, p3_new. destruct i; cbn [coord3 p3x p3y p3z]; (apply div_w; [exact W|]); rewrite tx_add; (erewrite (Rel_tx (row3 a _)); [erewrite Rel_tx; [reflexivity | eassumption | exact B2] | unfold row3; cbn [elin3]; rel | exact B1]).
Qed.
Lemma mul_point_rel2 a m p i : RelM3 a m -> Atom2 (coord2 p) -> m3_6 a = Z0 -> m3_7 a = Z0 -> m3_8 a = At false 0 -> row2 a i <> Bad -> etr2 a i <> Bad ->
  tx (coord2 (m3_mul_point m p) i) = xr A (Fin (den (row2 a i) + den (etr2 a i))).
Proof.
  intros H (P1 & P2) W1 W2 W4 B1 B2. unfold RelM3 in H. decompose [and] H. clear H. cbn [coord2] in *.
  assert (W : Rel (vadd (vadd (vmul (m3_6 a) (At false 4)) (vmul (m3_7 a) (At false 5))) (m3_8 a)) (sadd (sadd (smul (m3_6 m) (p2x p)) (smul (m3_7 m) (p2y p))) (m3_8 m))) by rel.
  rewrite W1, W2, W4 in W. cbn in W. rewrite env0 in W. unfold m3_mul_point, p2_new. destruct i; cbn [coord2 p2x p2y]; (apply div_w; [exact W|]); rewrite tx_add; (erewrite (Rel_tx (row2 a _)); [erewrite Rel_tx; [reflexivity | eassumption | exact B2] | unfold row2; cbn [elin2]; rel | exact B1]).
Qed.
End R.
(* the symbolic signed permutation *)
Definition lin_sv3 (s : Dimension3 -> Dimension3) (n : Dimension3 -> bool) (i j : Dimension3) : sv := if dim3_eqb j (s i) then At (n i) 0 else Z0.
Definition lin_sv2 (s : Dimension2 -> Dimension2) (n : Dimension2 -> bool) (i j : Dimension2) : sv := if dim2_eqb j (s i) then At (n i) 0 else Z0.
Definition sm3 s n : Matrix4x4 sv := mkM4 (lin_sv3 s n D3X D3X) (lin_sv3 s n D3X D3Y) (lin_sv3 s n D3X D3Z) (At false 1) (lin_sv3 s n D3Y D3X) (lin_sv3 s n D3Y D3Y) (lin_sv3 s n D3Y D3Z) (At false 2)
  (lin_sv3 s n D3Z D3X) (lin_sv3 s n D3Z D3Y) (lin_sv3 s n D3Z D3Z) (At false 3) Z0 Z0 Z0 (At false 0).
Definition sm2 s n : Matrix3x3 sv := mkM3 (lin_sv2 s n D2X D2X) (lin_sv2 s n D2X D2Y) (At false 1) (lin_sv2 s n D2Y D2X) (lin_sv2 s n D2Y D2Y) (At false 2) Z0 Z0 (At false 0).
Definition idx3 (d : Dimension3) : nat := match d with D3X => 0 | D3Y => 1 | D3Z => 2 end.
Definition idx2 (d : Dimension2) : nat := match d with D2X => 0 | D2Y => 1 end.
Definition Shape3 (a : Matrix4x4 sv) : Prop := m4_12 a = Z0 /\ m4_13 a = Z0 /\ m4_14 a = Z0 /\ m4_15 a = At false 0.
Definition Shape2 (a : Matrix3x3 sv) : Prop := m3_6 a = Z0 /\ m3_7 a = Z0 /\ m3_8 a = At false 0.
Lemma sym3 s n : (forall i j, s i = s j -> i = j) -> let a := sm3 s n in let a' := m4_divs (adj4 a) (det4 a) in
  (exists b, det4 a = At b 0) /\ Shape3 a /\ Shape3 a' /\ forall i, row3 a i = At (n i) (4 + idx3 (s i)) /\ etr3 a i = At false (1 + idx3 i) /\ row3 a' (s i) = At (n i) (4 + idx3 i) /\ etr3 a' (s i) = At (negb (n i)) (1 + idx3 i).
Proof.
  intros I. assert (I1 : s D3X <> s D3Y) by (intros E; apply I in E; discriminate). assert (I2 : s D3X <> s D3Z) by (intros E; apply I in E; discriminate). assert (I3 : s D3Y <> s D3Z) by (intros E; apply I in E; discriminate). clear I.
  cbv zeta. unfold sm3, lin_sv3. 
  assert (K : forall sx sy sz nx ny nz, sx <> sy -> sx <> sz -> sy <> sz -> let s i := match i with D3X => sx | D3Y => sy | D3Z => sz end in let n i := match i with D3X => nx | D3Y => ny | D3Z => nz end in
    let a := sm3 s n in let a' := m4_divs (adj4 a) (det4 a) in
    (exists b, det4 a = At b 0) /\ Shape3 a /\ Shape3 a' /\ forall i, row3 a i = At (n i) (4 + idx3 (s i)) /\ etr3 a i = At false (1 + idx3 i) /\ row3 a' (s i) = At (n i) (4 + idx3 i) /\ etr3 a' (s i) = At (negb (n i)) (1 + idx3 i)).
  { clear. intros sx sy sz nx ny nz I1 I2 I3. destruct sx, sy, sz; try congruence; clear I1 I2 I3; destruct nx, ny, nz; (split; [eexists; vm_compute; reflexivity|]; split; [repeat split; vm_compute; reflexivity|]; split; [repeat split; vm_compute; reflexivity|]; intros []; repeat split; vm_compute; reflexivity). }
  specialize (K (s D3X) (s D3Y) (s D3Z) (n D3X) (n D3Y) (n D3Z) I1 I2 I3). cbv zeta in K. unfold sm3, lin_sv3 in K. destruct K as (K1 & K2 & K3 & K4). split; [exact K1|]. split; [exact K2|]. split; [exact K3|]. intros i. specialize (K4 i). destruct i; exact K4.
Qed.
Lemma sym2 s n : (forall i j, s i = s j -> i = j) -> let a := sm2 s n in
  (exists b, m3_det a = At b 0) /\ Shape2 a /\ forall a', m3_inverse a = Ok a' -> Shape2 a' /\ forall i, row2 a i = At (n i) (4 + idx2 (s i)) /\ etr2 a i = At false (1 + idx2 i) /\ row2 a' (s i) = At (n i) (4 + idx2 i) /\ etr2 a' (s i) = At (negb (n i)) (1 + idx2 i).
Proof.
  intros I. assert (I1 : s D2X <> s D2Y) by (intros E; apply I in E; discriminate). clear I.
  cbv zeta. unfold sm2, lin_sv2. 
  assert (K : forall sx sy nx ny, sx <> sy -> let s i := match i with D2X => sx | D2Y => sy end in let n i := match i with D2X => nx | D2Y => ny end in
    let a := sm2 s n in 
    (exists b, m3_det a = At b 0) /\ Shape2 a /\ forall a', m3_inverse a = Ok a' -> Shape2 a' /\ forall i, row2 a i = At (n i) (4 + idx2 (s i)) /\ etr2 a i = At false (1 + idx2 i) /\ row2 a' (s i) = At (n i) (4 + idx2 i) /\ etr2 a' (s i) = At (negb (n i)) (1 + idx2 i)).
  { clear. intros sx sy nx ny I1. destruct sx, sy; try congruence; clear I1; destruct nx, ny; (split; [eexists; vm_compute; reflexivity|]; split; [repeat split; vm_compute; reflexivity|]; intros a' E; vm_compute in E; injection E as <-; split; [repeat split; vm_compute; reflexivity|]; intros []; repeat split; vm_compute; reflexivity). }
  specialize (K (s D2X) (s D2Y) (n D2X) (n D2Y) I1). cbv zeta in K. unfold sm2, lin_sv2 in K. destruct K as (K1 & K2 & K3). split; [exact K1|]. split; [exact K2|]. intros a' E. specialize (K3 a' E). destruct K3 as [K3 K4]. split; [exact K3|]. intros i. specialize (K4 i). destruct i; exact K4.
Qed.
Section M.
Context {A : arith}.
Definition env3 (m : Matrix4x4 (num A)) (p : Dimension3 -> num A) (k : nat) : R :=
  match k with 0%nat => 1 | 1%nat => real_of (etr3 m D3X) | 2%nat => real_of (etr3 m D3Y) | 3%nat => real_of (etr3 m D3Z) | 4%nat => real_of (p D3X) | 5%nat => real_of (p D3Y) | 6%nat => real_of (p D3Z) | _ => 0 end.
Definition env2 (m : Matrix3x3 (num A)) (p : Dimension2 -> num A) (k : nat) : R :=
  match k with 0%nat => 1 | 1%nat => real_of (etr2 m D2X) | 2%nat => real_of (etr2 m D2Y) | 4%nat => real_of (p D2X) | 5%nat => real_of (p D2Y) | _ => 0 end.
Lemma xr_real (x : num A) : Finite x -> xr A (Fin (real_of x)) = Fin (real_of x).
Proof. intros F. rewrite <- (Finite_real x F). apply xr_txx. Qed.
Lemma xr_1' : xr A (Fin 1) = Fin 1.
Proof. rewrite <- (tx_1 (A:=A)). apply xr_txx. Qed.
Lemma xr_0' : xr A (Fin 0) = Fin 0.
Proof. rewrite <- (tx_0 (A:=A)). apply xr_txx. Qed.
Lemma envr3 m p : (forall i, Finite (etr3 m i)) -> (forall i, Finite (p i)) -> forall k, xr A (Fin (env3 m p k)) = Fin (env3 m p k).
Proof. intros F G k. do 7 (destruct k as [|k]; [cbn [env3]; first [apply xr_1' | apply xr_real; auto]|]). apply xr_0'. Qed.
Lemma envr2 m p : (forall i, Finite (etr2 m i)) -> (forall i, Finite (p i)) -> forall k, xr A (Fin (env2 m p k)) = Fin (env2 m p k).
Proof. intros F G k. do 6 (destruct k as [|k]; [cbn [env2]; first [apply xr_1' | apply xr_0' | apply xr_real; auto]|]). apply xr_0'. Qed.
Lemma Eqs_one n (x : num A) env : env 0%nat = 1 -> Eqs x (signed n sone) -> Rel env (At n 0) x.
Proof. intros E0. rewrite Eqs_tx. intros [E _]. cbn. rewrite E, E0. destruct n; cbn; rewrite ?tx_neg, tx_1; reflexivity. Qed.
Lemma Eqs_zero (x : num A) env : Eqs x szero -> Rel env Z0 x.
Proof. rewrite Eqs_tx. intros [E _]. cbn. now rewrite E, tx_0. Qed.
Lemma lin_rel3 (m : Matrix4x4 (num A)) s n env : env 0%nat = 1 -> SignedPerm3 m s n -> forall i j, Rel env (lin_sv3 s n i j) (elin3 m i j).
Proof.
  intros E0 (_ & H1 & H2 & _) i j. unfold lin_sv3. destruct (dim3_eqb j (s i)) eqn:B.
  - assert (j = s i) by (destruct j, (s i); try discriminate; reflexivity). subst j. apply Eqs_one; auto.
  - apply Eqs_zero. apply H2. intros ->. revert B. destruct (s i); discriminate.
Qed.
Lemma lin_rel2 (m : Matrix3x3 (num A)) s n env : env 0%nat = 1 -> SignedPerm2 m s n -> forall i j, Rel env (lin_sv2 s n i j) (elin2 m i j).
Proof.
  intros E0 (_ & H1 & H2 & _) i j. unfold lin_sv2. destruct (dim2_eqb j (s i)) eqn:B.
  - assert (j = s i) by (destruct j, (s i); try discriminate; reflexivity). subst j. apply Eqs_one; auto.
  - apply Eqs_zero. apply H2. intros ->. revert B. destruct (s i); discriminate.
Qed.
Ltac splits := lazymatch goal with |- _ /\ _ => split; splits | |- _ => idtac end.
Lemma sm_rel3 (m : Matrix4x4 (num A)) s n p : SignedPerm3 m s n -> (forall i, Finite (etr3 m i)) -> RelM4 (env3 m p) (sm3 s n) m.
Proof.
  intros H F. pose proof (lin_rel3 m s n (env3 m p) eq_refl H) as L. destruct H as (_ & _ & _ & B1 & B2 & B3 & B4).
  unfold RelM4, sm3. cbn [m4_0 m4_1 m4_2 m4_3 m4_4 m4_5 m4_6 m4_7 m4_8 m4_9 m4_10 m4_11 m4_12 m4_13 m4_14 m4_15].
  splits; try (apply Eqs_zero; assumption); try (apply (Eqs_one false); [reflexivity | assumption]);
   try (exact (Finite_real _ (F D3X))); try (exact (Finite_real _ (F D3Y))); try (exact (Finite_real _ (F D3Z)));
   try exact (L D3X D3X); try exact (L D3X D3Y); try exact (L D3X D3Z); try exact (L D3Y D3X); try exact (L D3Y D3Y); try exact (L D3Y D3Z); try exact (L D3Z D3X); try exact (L D3Z D3Y); try exact (L D3Z D3Z).
Qed.
Lemma sm_rel2 (m : Matrix3x3 (num A)) s n p : SignedPerm2 m s n -> (forall i, Finite (etr2 m i)) -> RelM3 (env2 m p) (sm2 s n) m.
Proof.
  intros H F. pose proof (lin_rel2 m s n (env2 m p) eq_refl H) as L. destruct H as (_ & _ & _ & B1 & B2 & B4).
  unfold RelM3, sm2. cbn [m3_0 m3_1 m3_2 m3_3 m3_4 m3_5 m3_6 m3_7 m3_8].
  splits; try (apply Eqs_zero; assumption); try (apply (Eqs_one false); [reflexivity | assumption]);
   try (exact (Finite_real _ (F D2X))); try (exact (Finite_real _ (F D2Y)));
   try exact (L D2X D2X); try exact (L D2X D2Y); try exact (L D2Y D2X); try exact (L D2Y D2Y).
Qed.
Lemma env_p3 m (p : Dimension3 -> num A) d : env3 m p (4 + idx3 d) = real_of (p d).
Proof. destruct d; reflexivity. Qed.
Lemma env_t3 m (p : Dimension3 -> num A) d : env3 m p (1 + idx3 d) = real_of (etr3 m d).
Proof. destruct d; reflexivity. Qed.
Lemma env_p2 m (p : Dimension2 -> num A) d : env2 m p (4 + idx2 d) = real_of (p d).
Proof. destruct d; reflexivity. Qed.
Lemma env_t2 m (p : Dimension2 -> num A) d : env2 m p (1 + idx2 d) = real_of (etr2 m d).
Proof. destruct d; reflexivity. Qed.
Lemma signed_tx n (x : num A) : Finite x -> tx (signed n x) = Fin (sg n (real_of x)).
Proof. intros F. destruct n; cbn [signed sg]; rewrite ?tx_neg, (Finite_real x F); reflexivity. Qed.
Lemma xr_notnan r : xr A (Fin r) <> XNaN.
Proof. intros E. pose proof (f_equal xnan E) as K. rewrite xr_nan in K. discriminate. Qed.
Lemma Eqs_vec n (x y : num A) : Finite y -> tx x = Fin (sg n (real_of y)) -> Eqs x (signed n y).
Proof. intros F E. rewrite Eqs_tx, E, signed_tx by assumption. split; [reflexivity | discriminate]. Qed.
Lemma Eqs_ptf n (x y z : num A) : Finite y -> Finite z -> tx x = xr A (Fin (sg n (real_of y) + real_of z)) -> Eqs x (sadd (signed n y) z).
Proof. intros F G E. rewrite Eqs_tx, E, tx_add, signed_tx, (Finite_real z G) by assumption. split; [reflexivity | apply xr_notnan]. Qed.
Lemma Eqs_pti n (x y z : num A) : Finite y -> Finite z -> tx x = xr A (Fin (sg n (real_of y) + sg (negb n) (real_of z))) -> Eqs x (signed n (ssub y z)).
Proof.
  intros F G E. rewrite Eqs_tx, E. split; [|apply xr_notnan]. destruct n; cbn [signed sg negb]; rewrite ?tx_neg, tx_sub, (Finite_real y F), (Finite_real z G); cbn [xsub xadd xneg]; rewrite <- ?xr_neg; cbn [xneg]; do 2 f_equal; lra.
Qed.
End M.

Definition Acts3 {A : arith} (M M' : Matrix4x4 (num A)) (tr : Dimension3 -> num A) (s : Dimension3 -> Dimension3) (n : Dimension3 -> bool) : Prop :=
  (forall v i, VFinite3 v -> Eqs (vcoord3 (m4_mul_vector M v) i) (signed (n i) (vcoord3 v (s i)))) /\
  (forall v i, VFinite3 v -> Eqs (vcoord3 (m4_mul_vector M' v) (s i)) (signed (n i) (vcoord3 v i))) /\
  (forall p i, Finite3 p -> Eqs (coord3 (m4_mul_point M p) i) (sadd (signed (n i) (coord3 p (s i))) (tr i))) /\
  (forall p i, Finite3 p -> Eqs (coord3 (m4_mul_point M' p) (s i)) (signed (n i) (ssub (coord3 p i) (tr i)))).
Definition Acts2 {A : arith} (M M' : Matrix3x3 (num A)) (tr : Dimension2 -> num A) (s : Dimension2 -> Dimension2) (n : Dimension2 -> bool) : Prop :=
  (forall v i, VFinite2 v -> Eqs (vcoord2 (m3_mul_vector M v) i) (signed (n i) (vcoord2 v (s i)))) /\
  (forall v i, VFinite2 v -> Eqs (vcoord2 (m3_mul_vector M' v) (s i)) (signed (n i) (vcoord2 v i))) /\
  (forall p i, Finite2 p -> Eqs (coord2 (m3_mul_point M p) i) (sadd (signed (n i) (coord2 p (s i))) (tr i))) /\
  (forall p i, Finite2 p -> Eqs (coord2 (m3_mul_point M' p) (s i)) (signed (n i) (ssub (coord2 p i) (tr i)))).
Lemma perm_acts3 {A : arith} prof (m : Matrix4x4 (num A)) s n : SignedPerm3 m s n -> (forall i, Finite (etr3 m i)) -> exists m', m4_inverse prof m = Ret (Ok m') /\ Acts3 m m' (etr3 m) s n.
Proof.
  intros H F. pose proof (proj1 H) as I. pose proof (sym3 s n I) as SY. cbv zeta in SY. set (a := sm3 s n) in *. destruct SY as ((b & D) & Sa & Sa' & SY).
  assert (K : forall p : Dimension3 -> num A, (forall i, Finite (p i)) -> exists m', m4_inverse prof m = Ret (Ok m') /\ RelM4 (env3 m p) (m4_divs (adj4 a) (det4 a)) m').
  { intros p P. apply (inv4_rel (env3 m p) eq_refl (envr3 m p F P) prof a m b (sm_rel3 m s n p H F) D). }
  assert (F0 : Finite (szero : num A)) by (rewrite Finite_tx, tx_0; eauto).
  destruct (K (fun _ => szero) (fun _ => F0)) as (m' & Em & _). exists m'. split; [exact Em|].
  assert (K2 : forall p : Dimension3 -> num A, (forall i, Finite (p i)) -> RelM4 (env3 m p) (m4_divs (adj4 a) (det4 a)) m').
  { intros p P. destruct (K p P) as (m2 & E2 & R2). rewrite Em in E2. injection E2 as <-. exact R2. }
  assert (AT : forall p : Dimension3 -> num A, (forall i, Finite (p i)) -> Atom3 (env3 m p) p) by (intros p P; split; [|split]; apply (Finite_real _ (P _))).
  destruct Sa as (A1 & A2 & A3 & A4), Sa' as (A1' & A2' & A3' & A4').
  split; [|split; [|split]]; intros p i P.
  - destruct (SY i) as (S1 & S2 & S3 & S4). pose proof (mul_vector_rel3 (env3 m (vcoord3 p)) eq_refl (envr3 m (vcoord3 p) F P) a m p i (sm_rel3 m s n _ H F) (AT _ P)) as R. rewrite S1 in R. cbn [Rel den] in R. rewrite env_p3 in R. apply Eqs_vec; [apply P | exact R].
  - destruct (SY i) as (S1 & S2 & S3 & S4). pose proof (mul_vector_rel3 (env3 m (vcoord3 p)) eq_refl (envr3 m (vcoord3 p) F P) _ m' p (s i) (K2 _ P) (AT _ P)) as R. rewrite S3 in R. cbn [Rel den] in R. rewrite env_p3 in R. apply Eqs_vec; [apply P | exact R].
  - destruct (SY i) as (S1 & S2 & S3 & S4). pose proof (mul_point_rel3 (env3 m (coord3 p)) eq_refl (envr3 m (coord3 p) F P) a m p i (sm_rel3 m s n _ H F) (AT _ P) A1 A2 A3 A4) as R. rewrite S1, S2 in R. specialize (R ltac:(discriminate) ltac:(discriminate)). cbn [den] in R. rewrite env_p3, env_t3 in R. apply Eqs_ptf; [apply P | apply F | exact R].
  - destruct (SY i) as (S1 & S2 & S3 & S4). pose proof (mul_point_rel3 (env3 m (coord3 p)) eq_refl (envr3 m (coord3 p) F P) _ m' p (s i) (K2 _ P) (AT _ P) A1' A2' A3' A4') as R. rewrite S3, S4 in R. specialize (R ltac:(discriminate) ltac:(discriminate)). cbn [den] in R. rewrite env_p3, env_t3 in R. apply Eqs_pti; [apply P | apply F | exact R].
Qed.
Lemma perm_acts2 {A : arith} (m : Matrix3x3 (num A)) s n : SignedPerm2 m s n -> (forall i, Finite (etr2 m i)) -> exists m', m3_inverse m = Ok m' /\ Acts2 m m' (etr2 m) s n.
Proof.
  intros H F. pose proof (proj1 H) as I. pose proof (sym2 s n I) as SY. cbv zeta in SY. set (a := sm2 s n) in *. destruct SY as ((b & D) & Sa & SY).
  assert (K : forall p : Dimension2 -> num A, (forall i, Finite (p i)) -> exists m' a', m3_inverse m = Ok m' /\ m3_inverse a = Ok a' /\ RelM3 (env2 m p) a' m').
  { intros p P. apply (inv3_rel (env2 m p) eq_refl (envr2 m p F P) a m b (sm_rel2 m s n p H F) D). }
  assert (F0 : Finite (szero : num A)) by (rewrite Finite_tx, tx_0; eauto).
  destruct (K (fun _ => szero) (fun _ => F0)) as (m' & a' & Em & Ea & _). exists m'. split; [exact Em|].
  assert (K2 : forall p : Dimension2 -> num A, (forall i, Finite (p i)) -> RelM3 (env2 m p) a' m').
  { intros p P. destruct (K p P) as (m2 & a2 & E2 & E3 & R2). rewrite Em in E2. injection E2 as <-. rewrite Ea in E3. injection E3 as <-. exact R2. }
  assert (AT : forall p : Dimension2 -> num A, (forall i, Finite (p i)) -> Atom2 (env2 m p) p) by (intros p P; split; apply (Finite_real _ (P _))).
  destruct (SY a' Ea) as [Sa' SY']. destruct Sa as (A1 & A2 & A4), Sa' as (A1' & A2' & A4').
  split; [|split; [|split]]; intros p i P.
  - destruct (SY' i) as (S1 & S2 & S3 & S4). pose proof (mul_vector_rel2 (env2 m (vcoord2 p)) eq_refl (envr2 m (vcoord2 p) F P) a m p i (sm_rel2 m s n _ H F) (AT _ P)) as R. rewrite S1 in R. cbn [Rel den] in R. rewrite env_p2 in R. apply Eqs_vec; [apply P | exact R].
  - destruct (SY' i) as (S1 & S2 & S3 & S4). pose proof (mul_vector_rel2 (env2 m (vcoord2 p)) eq_refl (envr2 m (vcoord2 p) F P) _ m' p (s i) (K2 _ P) (AT _ P)) as R. rewrite S3 in R. cbn [Rel den] in R. rewrite env_p2 in R. apply Eqs_vec; [apply P | exact R].
  - destruct (SY' i) as (S1 & S2 & S3 & S4). pose proof (mul_point_rel2 (env2 m (coord2 p)) eq_refl (envr2 m (coord2 p) F P) a m p i (sm_rel2 m s n _ H F) (AT _ P) A1 A2 A4) as R. rewrite S1, S2 in R. specialize (R ltac:(discriminate) ltac:(discriminate)). cbn [den] in R. rewrite env_p2, env_t2 in R. apply Eqs_ptf; [apply P | apply F | exact R].
  - destruct (SY' i) as (S1 & S2 & S3 & S4). pose proof (mul_point_rel2 (env2 m (coord2 p)) eq_refl (envr2 m (coord2 p) F P) _ m' p (s i) (K2 _ P) (AT _ P) A1' A2' A4') as R. rewrite S3, S4 in R. specialize (R ltac:(discriminate) ltac:(discriminate)). cbn [den] in R. rewrite env_p2, env_t2 in R. apply Eqs_pti; [apply P | apply F | exact R].
Qed.
Lemma C88_signed_permutation_2d_pf : forall (A : arith) (m : Matrix3x3 (num A)) (s : Dimension2 -> Dimension2) (n : Dimension2 -> bool), SignedPerm2 m s n -> (forall i, Finite (etr2 m i)) ->
  exists t, t2_try_from m = Ok t /\
  (forall v i, VFinite2 v -> Eqs (vcoord2 (t2_transform_vector t v) i) (signed (n i) (vcoord2 v (s i)))) /\
  (forall v i, VFinite2 v -> Eqs (vcoord2 (t2_transform_vector (t2_inverse t) v) (s i)) (signed (n i) (vcoord2 v i))) /\
  (forall p i, Finite2 p -> Eqs (coord2 (t2_transform_point t p) i) (sadd (signed (n i) (coord2 p (s i))) (etr2 m i))) /\
  (forall p i, Finite2 p -> Eqs (coord2 (t2_transform_point (t2_inverse t) p) (s i)) (signed (n i) (ssub (coord2 p i) (etr2 m i)))).
Proof.
  intros A m s n H F. destruct (perm_acts2 m s n H F) as (m' & E & K). exists (t2_new m m'). unfold t2_try_from. rewrite E. split; [reflexivity|]. exact K.
Qed.
Lemma C88_signed_permutation_3d_pf : forall (A : arith) (prof : profile) (m : Matrix4x4 (num A)) (s : Dimension3 -> Dimension3) (n : Dimension3 -> bool), SignedPerm3 m s n -> (forall i, Finite (etr3 m i)) ->
  exists t, t3_try_from prof m = Ret (Ok t) /\
  (forall v i, VFinite3 v -> Eqs (vcoord3 (t3_transform_vector t v) i) (signed (n i) (vcoord3 v (s i)))) /\
  (forall v i, VFinite3 v -> Eqs (vcoord3 (t3_transform_vector (t3_inverse t) v) (s i)) (signed (n i) (vcoord3 v i))) /\
  (forall p i, Finite3 p -> Eqs (coord3 (t3_transform_point t p) i) (sadd (signed (n i) (coord3 p (s i))) (etr3 m i))) /\
  (forall p i, Finite3 p -> Eqs (coord3 (t3_transform_point (t3_inverse t) p) (s i)) (signed (n i) (ssub (coord3 p i) (etr3 m i)))).
Proof.
  intros A prof m s n H F. destruct (perm_acts3 prof m s n H F) as (m' & E & K). exists (t3_new m m'). unfold t3_try_from. rewrite E. split; [reflexivity|]. exact K.
Qed.
(* cameras along the axes *)
Section Cam.
Context {A : arith}.
Implicit Types x y : num A.
Definition e1 : nat -> R := fun k => match k with 0%nat => 1 | _ => 0 end.
Lemma e1r : forall k, xr A (Fin (e1 k)) = Fin (e1 k).
Proof. intros [|k]; [apply xr_1' | apply xr_0']. Qed.
Definition axv (a : saxis) (d : Dimension3) : sv := if dim3_eqb d (fst a) then At (snd a) 0 else Z0.
Definition axV (a : saxis) : Vector3 sv := mkVector3 (axv a D3X) (axv a D3Y) (axv a D3Z).
Definition RelA (a : saxis) (v : Vector3 (num A)) : Prop := forall d, Rel e1 (axv a d) (vcoord3 v d).
Ltac relc := repeat first [eassumption | apply (Rel_sub e1 e1r) | apply (Rel_mul e1 eq_refl e1r)].
Lemma cross_ax a b v w : fst a <> fst b -> RelA a v -> RelA b w -> RelA (saxis_cross a b) (v3_cross v w).
Proof.
  intros N V W. assert (E : v3_cross (axV a) (axV b) = axV (saxis_cross a b)) by (destruct a as [[] []], b as [[] []]; cbn in N; try congruence; vm_compute; reflexivity).
  assert (K : forall d, Rel e1 (vcoord3 (v3_cross (axV a) (axV b)) d) (vcoord3 (v3_cross v w) d)).
  { pose proof (V D3X) as VX. pose proof (V D3Y) as VY. pose proof (V D3Z) as VZ. pose proof (W D3X) as WX. pose proof (W D3Y) as WY. pose proof (W D3Z) as WZ.
    unfold v3_cross, v3_new, axV. intros []; cbn [vcoord3 v3x v3y v3z] in *; relc. }
  intros d. specialize (K d). rewrite E in K. destruct d; exact K.
Qed.
Lemma RelA_axis a v : RelA a v -> (forall d, d <> fst a -> Eqs (vcoord3 v d) szero) /\ tx (vcoord3 v (fst a)) = Fin (sg (snd a) 1).
Proof.
  intros V. split.
  - intros d N. specialize (V d). unfold axv in V. replace (dim3_eqb d (fst a)) with false in V by (destruct d, (fst a); try reflexivity; congruence). cbn in V. rewrite Eqs_tx, V, tx_0. split; [reflexivity | discriminate].
  - specialize (V (fst a)). unfold axv in V. replace (dim3_eqb (fst a) (fst a)) with true in V by (destruct (fst a); reflexivity). exact V.
Qed.
Lemma VEq_RelA a v (w : Vector3 (num A)) : VEq3 v w -> RelA a w -> RelA a v.
Proof. intros E H d. specialize (E d). specialize (H d). rewrite Eqs_tx in E. destruct E as [E _]. destruct (axv a d); cbn in *; try exact I; congruence. Qed.
Lemma axis_RelA d : RelA (d, false) (v3_axis d).
Proof. intros e. destruct d, e; cbn; rewrite ?tx_0, ?tx_1; reflexivity. Qed.
Lemma naxis_RelA d : RelA (d, true) (v3_neg (v3_axis d)).
Proof. intros e. destruct d, e; cbn; rewrite tx_neg, ?tx_0, ?tx_1; cbn; f_equal; lra. Qed.
Lemma norm_ax a (v : Vector3 (num A)) : (forall d, d <> fst a -> Eqs (vcoord3 v d) szero) -> Finite (v3_dot v v) -> min_subnormal A <= unit_roundoff A * real_of (v3_dot v v) -> Lt szero (along v a) -> RelA a (v3_normalize v).
Proof.
  intros Z F T L. destruct (C87_axis_normalize_3d_pf A v (fst a) Z F T) as [N1 N2]. destruct a as [d []]; cbn [fst snd along signed] in *.
  - unfold along in L. cbn [fst snd signed] in L. eapply VEq_RelA; [apply N2 | apply naxis_RelA]. rewrite Lt_tx, tx_neg, tx_0 in *. destruct (tx (vcoord3 v d)); cbn [xneg] in *; try discriminate; try reflexivity. apply xlt_fin in L. apply xlt_fin. lra.
  - eapply VEq_RelA; [apply N1 | apply axis_RelA]. exact L.
Qed.
Lemma norm_unit a v : RelA a v -> RelA a (v3_normalize v).
Proof.
  intros V. destruct (RelA_axis a v V) as [Z E]. pose proof (dot_axis3 v (fst a) Z) as D. rewrite tx_mul, E in D. cbn [xmul] in D.
  replace (sg (snd a) 1 * sg (snd a) 1) with 1 in D by (destruct (snd a); cbn; lra). rewrite xr_1' in D.
  assert (F : Finite (v3_dot v v)) by (rewrite Finite_tx; eauto).
  apply norm_ax; [exact Z | exact F | |].
  - apply dot_ge_1_ok; [exact F|]. rewrite Le_tx, tx_1, D. apply xle_fin. lra.
  - unfold along. rewrite Lt_tx, tx_0. destruct (snd a); cbn [signed sg] in *; rewrite ?tx_neg, E; cbn [xneg]; apply xlt_fin; lra.
Qed.
Lemma lt_sub x y : Finite (ssub y x) -> Lt x y -> Lt szero (ssub y x).
Proof.
  intros F L. destruct (err_sub y x F) as (Fy & Fx & d & Hd & V). rewrite Lt_tx, (Finite_real x Fx), (Finite_real y Fy) in L. apply xlt_fin in L. rewrite Lt_tx, tx_0, (Finite_real _ F), V. apply xlt_fin. pose proof (u_pos (A:=A)). apply Rabs_le_inv in Hd. apply Rmult_lt_0_compat; lra.
Qed.
Lemma sub_lt x y : Finite (ssub y x) -> Lt y x -> Lt szero (sneg (ssub y x)).
Proof.
  intros F L. destruct (err_sub y x F) as (Fy & Fx & d & Hd & V). rewrite Lt_tx, (Finite_real x Fx), (Finite_real y Fy) in L. apply xlt_fin in L. rewrite Lt_tx, tx_0, tx_neg, (Finite_real _ F), V. cbn [xneg]. apply xlt_fin. pose proof (u_pos (A:=A)). apply Rabs_le_inv in Hd. assert (0 < (real_of x - real_of y) * (1 + d)) by (apply Rmult_lt_0_compat; lra). lra.
Qed.
Lemma RelA_Eqs a v d : RelA a v -> Eqs (vcoord3 v d) (if dim3_eqb d (fst a) then signed (snd a) sone else szero).
Proof.
  intros V. specialize (V d). unfold axv in V. destruct (dim3_eqb d (fst a)); cbn in V; rewrite Eqs_tx, V; [|rewrite tx_0; split; [reflexivity | discriminate]].
  destruct (snd a); cbn [signed sg]; rewrite ?tx_neg, tx_1; split; (reflexivity || discriminate).
Qed.
Definition src (X U : saxis) (i : Dimension3) : Dimension3 := if dim3_eqb i (fst X) then D3X else if dim3_eqb i (fst U) then D3Y else D3Z.
Definition sgn (X U Z : saxis) (i : Dimension3) : bool := if dim3_eqb i (fst X) then snd X else if dim3_eqb i (fst U) then snd U else snd Z.
Lemma cam_perm (from target : Point3 (num A)) (up : Vector3 (num A)) (z u : saxis) : fst z <> fst u ->
  (forall d, d <> fst z -> Eqs (coord3 target d) (coord3 from d)) ->
  (if snd z then Lt (coord3 target (fst z)) (coord3 from (fst z)) else Lt (coord3 from (fst z)) (coord3 target (fst z))) ->
  (forall d, d <> fst u -> Eqs (vcoord3 up d) szero) -> Lt szero (along up u) ->
  (let w := p3_sub target from in Finite (v3_dot w w) /\ min_subnormal A <= unit_roundoff A * real_of (v3_dot w w)) ->
  Finite (v3_dot up up) -> min_subnormal A <= unit_roundoff A * real_of (v3_dot up up) ->
  SignedPerm3 (m4_inverse_look_at from target up) (src (saxis_cross u z) u) (sgn (saxis_cross u z) u z).
Proof.
  intros N T1 T2 U1 U2 [W1 W2] F3 F4. set (w := p3_sub target from) in *.
  assert (FW : VFinite3 w). { pose proof (dot_finite_inv3 w W1) as FF. intros []; cbn; tauto. }
  assert (HD : RelA z (v3_normalize w)).
  { apply norm_ax; [|exact W1 | exact W2 |].
    - intros d Nd. unfold w. rewrite dsub3. apply sub_eq0; [rewrite <- dsub3; apply FW | apply T1, Nd].
    - unfold along, w. rewrite dsub3. pose proof (FW (fst z)) as Fz. unfold w in Fz. rewrite dsub3 in Fz. destruct (snd z); cbn [signed]; [apply sub_lt | apply lt_sub]; assumption. }
  assert (HU : RelA u (v3_normalize up)) by (apply norm_ax; assumption).
  assert (HX : RelA (saxis_cross u z) (v3_normalize (v3_cross (v3_normalize up) (v3_normalize w)))) by (apply norm_unit, cross_ax; auto).
  assert (HN : RelA u (v3_cross (v3_normalize w) (v3_normalize (v3_cross (v3_normalize up) (v3_normalize w))))).
  { assert (E : saxis_cross z (saxis_cross u z) = u /\ fst z <> fst (saxis_cross u z)) by (destruct u as [[] []], z as [[] []]; cbn in *; split; (reflexivity || congruence || discriminate)).
    rewrite <- (proj1 E) at 1. apply cross_ax; [apply E | exact HD | exact HX]. }
  unfold m4_inverse_look_at. fold w. set (D := v3_normalize w) in *. set (Rt := v3_normalize (v3_cross (v3_normalize up) D)) in *. set (Up := v3_cross D Rt) in *. cbv zeta.
  assert (Z0e : Eqs (szero : num A) szero) by (rewrite Eqs_tx, tx_0; split; [reflexivity | discriminate]).
  assert (O0e : Eqs (sone : num A) sone) by (rewrite Eqs_tx, tx_1; split; [reflexivity | discriminate]).
  assert (EL : forall i j, elin3 (m4_new (v3x Rt) (v3x Up) (v3x D) (p3x from) (v3y Rt) (v3y Up) (v3y D) (p3y from) (v3z Rt) (v3z Up) (v3z D) (p3z from) szero szero szero sone) i j = match j with D3X => vcoord3 Rt i | D3Y => vcoord3 Up i | D3Z => vcoord3 D i end) by (intros [] []; reflexivity).
  split; [|split; [|split; [|repeat split; assumption]]].
  - intros i j. destruct u as [[] b], z as [[] c]; cbn in N; try congruence; destruct i, j; cbn; congruence.
  - intros i. rewrite EL. pose proof (RelA_Eqs _ _ i HX) as EX. pose proof (RelA_Eqs _ _ i HN) as EN. pose proof (RelA_Eqs _ _ i HD) as ED. clearbody D Rt Up. clear - N EX EN ED.
    destruct u as [[] b], z as [[] c]; cbn [fst snd] in *; try congruence; destruct i; first [exact EX | exact EN | exact ED].
  - intros i j. rewrite EL. pose proof (RelA_Eqs _ _ i HX) as EX. pose proof (RelA_Eqs _ _ i HN) as EN. pose proof (RelA_Eqs _ _ i HD) as ED. clearbody D Rt Up. clear - N EX EN ED.
    destruct u as [[] b], z as [[] c]; cbn [fst snd] in *; try congruence; destruct i, j; cbn; intros M; try congruence; first [exact EX | exact EN | exact ED].
Qed.
End Cam.
Lemma C88_axis_camera_pf : forall (A : arith) (prof : profile) (from target : Point3 (num A)) (up : Vector3 (num A)) (z u : saxis), fst z <> fst u -> Finite3 from ->
  (forall d, d <> fst z -> Eqs (coord3 target d) (coord3 from d)) ->
  (if snd z then Lt (coord3 target (fst z)) (coord3 from (fst z)) else Lt (coord3 from (fst z)) (coord3 target (fst z))) ->
  (forall d, d <> fst u -> Eqs (vcoord3 up d) szero) -> Lt szero (along up u) ->
  (let w := p3_sub target from in Finite (v3_dot w w) /\ min_subnormal A <= unit_roundoff A * real_of (v3_dot w w)) ->
  Finite (v3_dot up up) -> min_subnormal A <= unit_roundoff A * real_of (v3_dot up up) ->
  let x := saxis_cross u z in
  exists t, t3_look_at prof from target up = Ret (Ok t) /\
  (forall v, VFinite3 v -> VEq3 (t3_transform_vector t v) (mkVector3 (along v x) (along v u) (along v z))) /\
  (forall p, Finite3 p -> PEq3 (t3_transform_point t p) (let c a := signed (snd a) (ssub (coord3 p (fst a)) (coord3 from (fst a))) in mkPoint3 (c x) (c u) (c z))) /\
  (forall v, VFinite3 v -> let v' := t3_transform_vector (t3_inverse t) v in
     Eqs (along v' x) (v3x v) /\ Eqs (along v' u) (v3y v) /\ Eqs (along v' z) (v3z v)) /\
  (forall q, Finite3 q -> let q' := t3_transform_point (t3_inverse t) q in let c a r := Eqs (coord3 q' (fst a)) (sadd (signed (snd a) r) (coord3 from (fst a))) in
     c x (p3x q) /\ c u (p3y q) /\ c z (p3z q)).
Proof.
  intros A prof from target up z u N FF T1 T2 U1 U2 W F3 F4 x. pose proof (cam_perm from target up z u N T1 T2 U1 U2 W F3 F4) as H. fold x in H.
  set (M := m4_inverse_look_at from target up) in *. assert (TR : forall i, etr3 M i = coord3 from i) by (intros []; reflexivity).
  destruct (perm_acts3 prof M _ _ H ltac:(intros i; rewrite TR; apply FF)) as (m' & E & V1 & V2 & P1 & P2).
  exists (t3_new m' M). unfold t3_look_at. fold M. rewrite E. split; [reflexivity|].
  assert (SX : src x u (fst x) = D3X /\ src x u (fst u) = D3Y /\ src x u (fst z) = D3Z /\ sgn x u z (fst x) = snd x /\ sgn x u z (fst u) = snd u /\ sgn x u z (fst z) = snd z)
    by (unfold x; destruct u as [[] b], z as [[] c]; cbn in N; try congruence; repeat split).
  destruct SX as (S1 & S2 & S3 & G1 & G2 & G3). unfold t3_transform_vector, t3_transform_point, t3_inverse. cbn [t3_forward t3_inv t3_new].
  split; [|split; [|split]].
  - intros v Fv. pose proof (V2 v (fst x) Fv) as K1. pose proof (V2 v (fst u) Fv) as K2. pose proof (V2 v (fst z) Fv) as K3. rewrite S1, G1 in K1. rewrite S2, G2 in K2. rewrite S3, G3 in K3. intros []; assumption.
  - intros p Fp. pose proof (P2 p (fst x) Fp) as K1. pose proof (P2 p (fst u) Fp) as K2. pose proof (P2 p (fst z) Fp) as K3. rewrite S1, G1, TR in K1. rewrite S2, G2, TR in K2. rewrite S3, G3, TR in K3. intros []; assumption.
  - intros v Fv. cbv zeta. pose proof (V1 v (fst x) Fv) as K1. pose proof (V1 v (fst u) Fv) as K2. pose proof (V1 v (fst z) Fv) as K3. rewrite S1, G1 in K1. rewrite S2, G2 in K2. rewrite S3, G3 in K3.
    assert (Q : forall n (a b : num A), Eqs a (signed n b) -> Eqs (signed n a) b).
    { intros [] a b; cbn [signed]; [|tauto]. rewrite !Eqs_tx, !tx_neg. intros [-> Hn]. rewrite xneg_xneg. split; [reflexivity|]. intros Hb. rewrite Hb in Hn. now apply Hn. }
    unfold along. repeat split; apply Q; assumption.
  - intros q Fq. cbv zeta. pose proof (P1 q (fst x) Fq) as K1. pose proof (P1 q (fst u) Fq) as K2. pose proof (P1 q (fst z) Fq) as K3. rewrite S1, G1, TR in K1. rewrite S2, G2, TR in K2. rewrite S3, G3, TR in K3. split; [|split]; assumption.
Qed.
