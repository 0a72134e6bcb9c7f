(** Proofs: the algebra of the transform constructors in floating point (C84). *)
From Coq Require Import Bool NArith ZArith Reals List Lra Lia.
From Flocq Require Import Core.Zaux Core.Raux Core.Defs Core.Generic_fmt Core.FLT IEEE754.BinarySingleNaN.
From Verif Require Import Scalar Types Vector2 Vector3 Point2 Point3 Ray BoundingBox2 BoundingBox3 Transform2 Transform3 Float
  XReal OrdLaws Arith SpecOrder SpecStruct SpecFloat SpecReal SpecErr SpecSame SpecRot SpecAlg ExactMat FloatX XArith FloatLaws FloatTrans ErrBase FloatErr FloatRot ExVals.
Import ListNotations.
Local Open Scope R_scope.
Ltac mred := cbn [t2_new t3_new t2_forward t3_forward t2_inv t3_inv v2x v2y v3x v3y v3z m3_0 m3_1 m3_2 m3_3 m3_4 m3_5 m3_6 m3_7 m3_8 m4_0 m4_1 m4_2 m4_3 m4_4 m4_5 m4_6 m4_7 m4_8 m4_9 m4_10 m4_11 m4_12 m4_13 m4_14 m4_15].
Ltac allseq := repeat (apply andb_true_intro; split); (apply seq_of_tx; [txs; reflexivity | nonan]).
Lemma C84_identity_neutral_2d_pf : forall (A : arith) (t : Transform2 (num A)), MFinite3 (t2_forward t) -> MFinite3 (t2_inv t) ->
  t2_eq (t2_and_then t2_identity t) t = true /\ t2_eq (t2_and_then t t2_identity) t = true.
Proof.
  intros A t F I. destruct (C37_identity_neutral_float_2d_pf A _ F) as [F1 F2]. destruct (C37_identity_neutral_float_2d_pf A _ I) as [I1 I2].
  unfold t2_eq, t2_and_then, t2_identity, t2_new. mred. split; apply andb_true_intro; split; assumption.
Qed.
Lemma C84_identity_neutral_3d_pf : forall (A : arith) (t : Transform3 (num A)), MFinite4 (t3_forward t) -> MFinite4 (t3_inv t) ->
  t3_eq (t3_and_then t3_identity t) t = true /\ t3_eq (t3_and_then t t3_identity) t = true.
Proof.
  intros A t F I. destruct (C37_identity_neutral_float_3d_pf A _ F) as [F1 F2]. destruct (C37_identity_neutral_float_3d_pf A _ I) as [I1 I2].
  unfold t3_eq, t3_and_then, t3_identity, t3_new. mred. split; apply andb_true_intro; split; assumption.
Qed.
Lemma C84_scale_compose_2d_pf : forall (A : arith) (ax ay bx by_ : num A), Finite ax -> Finite ay -> Finite bx -> Finite by_ ->
  let t := t2_and_then (t2_scale ax ay) (t2_scale bx by_) in
  m3_eq (t2_forward t) (t2_forward (t2_scale (smul bx ax) (smul by_ ay))) = true /\
  (Finite (srecip ax) -> Finite (srecip ay) -> Finite (srecip bx) -> Finite (srecip by_) ->
   m3_eq (t2_inv t) (t2_forward (t2_scale (smul (srecip ax) (srecip bx)) (smul (srecip ay) (srecip by_)))) = true) /\
  t2_scale_uniform ax = t2_scale ax ax.
Proof.
  intros A ax ay bx by_ H1 H2 H3 H4 t. unfold t, m3_eq, t2_and_then, t2_scale, m3_scale, m3_mul, m3_new. mred. split; [|split; [|reflexivity]].
  - fin H1. fin H2. fin H3. fin H4. allseq.
  - intros R1 R2 R3 R4. fin R1. fin R2. fin R3. fin R4. allseq.
Qed.
Lemma C84_scale_compose_3d_pf : forall (A : arith) (ax ay az bx by_ bz : num A), Finite ax -> Finite ay -> Finite az -> Finite bx -> Finite by_ -> Finite bz ->
  let t := t3_and_then (t3_scale ax ay az) (t3_scale bx by_ bz) in
  m4_eq (t3_forward t) (t3_forward (t3_scale (smul bx ax) (smul by_ ay) (smul bz az))) = true /\
  (Finite (srecip ax) -> Finite (srecip ay) -> Finite (srecip az) -> Finite (srecip bx) -> Finite (srecip by_) -> Finite (srecip bz) ->
   m4_eq (t3_inv t) (t3_forward (t3_scale (smul (srecip ax) (srecip bx)) (smul (srecip ay) (srecip by_)) (smul (srecip az) (srecip bz)))) = true) /\
  t3_scale_uniform ax = t3_scale ax ax ax.
Proof.
  intros A ax ay az bx by_ bz H1 H2 H3 H4 H5 H6 t. unfold t, m4_eq, t3_and_then, t3_scale, m4_scale, m4_mul, m4_new. mred. split; [|split; [|reflexivity]].
  - fin H1. fin H2. fin H3. fin H4. fin H5. fin H6. allseq.
  - intros R1 R2 R3 R4 R5 R6. fin R1. fin R2. fin R3. fin R4. fin R5. fin R6. allseq.
Qed.
Lemma sc_neg {A : arith} (x y : num A) : SinCosOpposite x y -> exists s c s' c', ssin_cos x = (s, c) /\ ssin_cos y = (s', c') /\ (Finite s /\ Finite c) /\ tx s' = tx (sneg s) /\ tx c' = tx c.
Proof. unfold SinCosOpposite. destruct (ssin_cos x) as [s c], (ssin_cos y) as [s' c']. intros (F & G & H & K). exists s, c, s', c'. apply Eqs_tx in H, K. tauto. Qed.
Lemma sc_nil {A : arith} (x : num A) : SinCosNone x -> exists s c, ssin_cos x = (s, c) /\ tx s = Fin 0 /\ tx c = Fin 1.
Proof. unfold SinCosNone. destruct (ssin_cos x) as [s c]. intros (F & G). exists s, c. apply Eqs_tx in F, G. rewrite tx_0 in F. rewrite tx_1 in G. tauto. Qed.
Lemma C84_rotation_opposite_2d_pf : forall (A : arith) (x y : num A), SinCosOpposite x y -> t2_eq (t2_rotate y) (t2_inverse (t2_rotate x)) = true.
Proof.
  intros A x y H. apply sc_neg in H. destruct H as (s & c & s' & c' & E & E' & (Fs & Fc) & Hs & Hc). unfold t2_rotate, m3_rotate. rewrite E, E'. fin Fs. fin Fc. rewrite tx_neg in Hs. rewrite ?E0, ?E1 in *. cbn [xneg] in Hs.
  unfold t2_eq, m3_eq, t2_inverse, m3_transpose, m3_new. mred. repeat (apply andb_true_intro; split); (apply seq_of_tx; [txs; rewrite ?Ropp_involutive; reflexivity | nonan]).
Qed.
Lemma C84_rotation_opposite_3d_pf : forall (A : arith) (x y : num A), SinCosOpposite x y ->
  t3_eq (t3_rotate_x y) (t3_inverse (t3_rotate_x x)) = true /\
  t3_eq (t3_rotate_y y) (t3_inverse (t3_rotate_y x)) = true /\
  t3_eq (t3_rotate_z y) (t3_inverse (t3_rotate_z x)) = true.
Proof.
  intros A x y H. apply sc_neg in H. destruct H as (s & c & s' & c' & E & E' & (Fs & Fc) & Hs & Hc). unfold t3_rotate_x, m4_rotate_x, t3_rotate_y, m4_rotate_y, t3_rotate_z, m4_rotate_z. rewrite E, E'. fin Fs. fin Fc. rewrite tx_neg in Hs. rewrite ?E0, ?E1 in *. cbn [xneg] in Hs.
  unfold t3_eq, m4_eq, t3_inverse, m4_transpose, m4_new. mred. split; [|split]; repeat (apply andb_true_intro; split); (apply seq_of_tx; [txs; rewrite ?Ropp_involutive; reflexivity | nonan]).
Qed.
Lemma C84_rotation_none_pf : forall (A : arith) (x : num A), SinCosNone x ->
  t2_eq (t2_rotate x) t2_identity = true /\ t3_eq (t3_rotate_x x) t3_identity = true /\ t3_eq (t3_rotate_y x) t3_identity = true /\ t3_eq (t3_rotate_z x) t3_identity = true.
Proof.
  intros A x H. apply sc_nil in H. destruct H as (s & c & E & Hs & Hc). unfold t2_rotate, m3_rotate, t3_rotate_x, m4_rotate_x, t3_rotate_y, m4_rotate_y, t3_rotate_z, m4_rotate_z. rewrite E.
  unfold t2_eq, m3_eq, t2_identity, m3_identity, m3_transpose, m3_new, t3_eq, m4_eq, t3_identity, m4_identity, m4_transpose, m4_new. mred. conjs; allseq.
Qed.
Lemma Nr_pad_r {A : arith} (x a : num A) q h : Nr x q h -> Finite a -> Nr (sadd x (smul szero a)) q h /\ Nr (sadd x (smul a szero)) q h.
Proof. intros [F E] G. fin F. fin G. assert (T : tx (sadd x (smul szero a)) = tx x) by (txs; reflexivity). assert (T' : tx (sadd x (smul a szero)) = tx x) by (txs; reflexivity).
  destruct (real_of_eq _ _ T) as [F1 F2]. destruct (real_of_eq _ _ T') as [F1' F2']. unfold Nr. rewrite F2, F2' by tauto. tauto. Qed.
Lemma Nr_pad_l {A : arith} (x a : num A) q h : Nr x q h -> Finite a -> Nr (sadd (smul szero a) x) q h /\ Nr (sadd (smul a szero) x) q h.
Proof. intros [F E] G. fin F. fin G. assert (T : tx (sadd (smul szero a) x) = tx x) by (txs; reflexivity). assert (T' : tx (sadd (smul a szero) x) = tx x) by (txs; reflexivity).
  destruct (real_of_eq _ _ T) as [F1 F2]. destruct (real_of_eq _ _ T') as [F1' F2']. unfold Nr. rewrite F2, F2' by tauto. tauto. Qed.
Lemma Nr_z {A : arith} (a : num A) h : 0 <= h -> Finite a -> Nr (smul szero a) 0 h /\ Nr (smul a szero) 0 h.
Proof. intros H G. fin G. assert (T : tx (smul szero a) = Fin 0) by (txs; reflexivity). assert (T' : tx (smul a szero) = Fin 0) by (txs; reflexivity). apply Finite_intro in T, T'.
  unfold Nr. destruct T as [? ->], T' as [? ->]. rewrite Rminus_0_r, Rabs_R0. tauto. Qed.
Lemma Nr_11 {A : arith} h : 0 <= h -> Nr (smul sone sone : num A) 1 h.
Proof. intros H. assert (T : tx (smul sone sone : num A) = Fin 1) by (txs; reflexivity). apply Finite_intro in T. unfold Nr. destruct T as [? ->]. rewrite Rminus_diag_eq, Rabs_R0 by reflexivity. tauto. Qed.
Lemma t_lt_u {A : arith} : 0 <= min_subnormal A <= unit_roundoff A / 1000000.
Proof. pose proof (t_le_uuu (A:=A)) as T. pose proof (u_pos (A:=A)) as U. split; [apply t_pos|]. assert (unit_roundoff A * unit_roundoff A * unit_roundoff A <= unit_roundoff A * / 16777216 * 1) by (apply prod_le; try (apply Rmult_le_pos); try lra; apply Rmult_le_compat_l; lra). lra. Qed.
Lemma Nr_dot2 {A : arith} (a b c d : num A) p q r s e : Nr a p e -> Nr b q e -> Nr c r e -> Nr d s e -> 0 <= e <= 1 / 128 -> Rabs p <= 1 -> Rabs q <= 1 -> Rabs r <= 1 -> Rabs s <= 1 ->
  Nr (sadd (smul a b) (smul c d)) (p * q + r * s) (5 * e + 6 * unit_roundoff A).
Proof.
  intros Ha Hb Hc Hd He Bp Bq Br Bs. pose proof (Nr_abs _ _ _ Ha) as A1. pose proof (Nr_abs _ _ _ Hb) as A2. pose proof (Nr_abs _ _ _ Hc) as A3. pose proof (Nr_abs _ _ _ Hd) as A4.
  pose proof (u_pos (A:=A)) as U. pose proof (t_lt_u (A:=A)) as T.
  pose proof (Nr_mul _ _ _ _ _ _ (129 / 128) (129 / 128) 1 Ha Hb ltac:(lra) ltac:(lra) Bp ltac:(lra)) as M1.
  pose proof (Nr_mul _ _ _ _ _ _ (129 / 128) (129 / 128) 1 Hc Hd ltac:(lra) ltac:(lra) Br ltac:(lra)) as M2.
  pose proof (Nr_abs _ _ _ M1) as B1. pose proof (Nr_abs _ _ _ M2) as B2.
  assert (P1 : Rabs (p * q) <= 1 * 1) by (rewrite Rabs_mult; apply prod_le; try apply Rabs_pos; lra).
  assert (P2 : Rabs (r * s) <= 1 * 1) by (rewrite Rabs_mult; apply prod_le; try apply Rabs_pos; lra).
  eapply Nr_le; [eapply (Nr_add _ _ _ _ _ _ (11 / 10) (11 / 10) M1 M2); lra|]. lra.
Qed.

Lemma Nr_tx {A : arith} (x y : num A) q h : tx x = tx y -> Nr y q h -> Nr x q h.
Proof. intros T [F E]. destruct (real_of_eq _ _ T) as [F1 F2]. unfold Nr. rewrite F2 by tauto. tauto. Qed.
Lemma Nr_in {A : arith} (x y z : num A) q h : tx z = Fin 0 -> Nr (sadd x y) q h -> Nr (sadd (sadd x z) y) q h.
Proof. intros Z. apply Nr_tx. rewrite !tx_add, Z, xadd_0_r, xr_tx. reflexivity. Qed.
Lemma Nr_zl {A : arith} (z y : num A) q h : tx z = Fin 0 -> Nr y q h -> Nr (sadd z y) q h.
Proof. intros Z. apply Nr_tx. rewrite !tx_add, Z, xadd_0_l, xr_tx. reflexivity. Qed.
Lemma Nr_in2 {A : arith} (x y z : num A) q h : tx z = Fin 0 -> Nr (sadd x y) q h -> Nr (sadd (sadd z x) y) q h.
Proof. intros Z. apply Nr_tx. rewrite !tx_add, Z, xadd_0_l, xr_tx. reflexivity. Qed.
Ltac strip := repeat match goal with
  | |- Nr (sadd _ (smul szero _)) _ _ => apply (fun x a q h H F => proj1 (Nr_pad_r x a q h H F))
  | |- Nr (sadd _ (smul _ szero)) _ _ => apply (fun x a q h H F => proj2 (Nr_pad_r x a q h H F))
  | |- Nr (sadd (smul szero _) _) _ _ => apply (fun x a q h H F => proj1 (Nr_pad_l x a q h H F))
  | |- Nr (sadd (smul _ szero) _) _ _ => apply (fun x a q h H F => proj2 (Nr_pad_l x a q h H F))
  | |- Nr (smul szero _) _ _ => apply (fun a h H F => proj1 (Nr_z a h H F))
  | |- Nr (smul _ szero) _ _ => apply (fun a h H F => proj2 (Nr_z a h H F))
  | |- Nr (smul sone sone) _ _ => apply Nr_11
  | |- Finite szero => apply Zr_0
  | |- Finite sone => apply real_of_1
  | |- Finite (sneg _) => apply neg_finite
  | |- Finite _ => assumption
  | |- 0 <= _ => lra
  | |- Nr (sadd (sadd _ (smul szero szero)) (smul ?x ?y)) _ _ => apply Nr_in; [txs; reflexivity|]
  | |- Nr (sadd (sadd (smul szero szero) _) (smul ?x ?y)) _ _ => apply Nr_in2; [txs; reflexivity|]
  | |- Nr (sadd (sadd _ _) (smul sone sone)) _ _ => apply Nr_zl; [txs; reflexivity|]
  end.
Lemma sc_nr {A : arith} (x : num A) e : SinCosWithin x e -> 0 <= e <= 1 / 128 -> exists s c, ssin_cos x = (s, c) /\ (Finite s /\ Finite c) /\
  Nr s (sin (real_of x)) e /\ Nr c (cos (real_of x)) e /\ Nr (sneg s) (- sin (real_of x)) e.
Proof. unfold SinCosWithin. destruct (ssin_cos x) as [s c]. intros (Fs & Fc & Es & Ec) H. exists s, c. conjs; try reflexivity; try assumption; try (split; assumption). apply Nr_neg. split; assumption. Qed.
Lemma mn3 {A : arith} (m : Matrix3x3 (num A)) Q h : Nr (m3_0 m) (m3_0 Q) h /\ Nr (m3_1 m) (m3_1 Q) h /\ Nr (m3_2 m) (m3_2 Q) h /\ Nr (m3_3 m) (m3_3 Q) h /\ Nr (m3_4 m) (m3_4 Q) h /\ Nr (m3_5 m) (m3_5 Q) h /\ Nr (m3_6 m) (m3_6 Q) h /\ Nr (m3_7 m) (m3_7 Q) h /\ Nr (m3_8 m) (m3_8 Q) h ->
  MFinite3 m /\ forall r c, (r < 3)%nat -> (c < 3)%nat -> Rabs (ent3 (RM3 m) r c - ent3 Q r c) <= h.
Proof.
  unfold Nr. intros H. decompose [and] H. clear H. split; [repeat (constructor; [assumption|]); constructor|]. intros r c Hr Hc.
  do 3 (destruct r as [|r]; [do 3 (destruct c as [|c]; [cbn; assumption|]); lia|]). lia.
Qed.
Lemma mn4 {A : arith} (m : Matrix4x4 (num A)) Q h : Nr (m4_0 m) (m4_0 Q) h /\ Nr (m4_1 m) (m4_1 Q) h /\ Nr (m4_2 m) (m4_2 Q) h /\ Nr (m4_3 m) (m4_3 Q) h /\ Nr (m4_4 m) (m4_4 Q) h /\ Nr (m4_5 m) (m4_5 Q) h /\ Nr (m4_6 m) (m4_6 Q) h /\ Nr (m4_7 m) (m4_7 Q) h /\ Nr (m4_8 m) (m4_8 Q) h /\ Nr (m4_9 m) (m4_9 Q) h /\ Nr (m4_10 m) (m4_10 Q) h /\ Nr (m4_11 m) (m4_11 Q) h /\ Nr (m4_12 m) (m4_12 Q) h /\ Nr (m4_13 m) (m4_13 Q) h /\ Nr (m4_14 m) (m4_14 Q) h /\ Nr (m4_15 m) (m4_15 Q) h ->
  MFinite4 m /\ forall r c, (r < 4)%nat -> (c < 4)%nat -> Rabs (ent4 (RM4 m) r c - ent4 Q r c) <= h.
Proof.
  unfold Nr. intros H. decompose [and] H. clear H. split; [repeat (constructor; [assumption|]); constructor|]. intros r c Hr Hc.
  do 4 (destruct r as [|r]; [do 4 (destruct c as [|c]; [cbn; assumption|]); lia|]). lia.
Qed.
Ltac rot_dot := eapply Nr_eq; [eapply Nr_dot2; [eassumption | eassumption | eassumption | eassumption | eassumption | ..]; rewrite ?Rabs_Ropp; apply sc_le1|].
Ltac trig := first [ring | rewrite cos_plus; ring | rewrite sin_plus; ring | rewrite cos_neg, cos_plus; ring | rewrite sin_neg, sin_plus; ring].
Lemma C84_rotation_angles_add_2d_pf : forall (A : arith) (x y : num A) (e : R), SinCosWithin x e -> SinCosWithin y e -> 0 <= e <= 1 / 128 ->
  let t := t2_and_then (t2_rotate x) (t2_rotate y) in let a := real_of x + real_of y in
  (MFinite3 (t2_forward t) /\ forall r c, (r < 3)%nat -> (c < 3)%nat -> Rabs (ent3 (RM3 (t2_forward t)) r c - ent3 (Mrot a) r c) <= 5 * e + 6 * unit_roundoff A) /\
  (MFinite3 (t2_inv t) /\ forall r c, (r < 3)%nat -> (c < 3)%nat -> Rabs (ent3 (RM3 (t2_inv t)) r c - ent3 (Mrot (- a)) r c) <= 5 * e + 6 * unit_roundoff A).
Proof.
  intros A x y e Hx Hy He t a. pose proof (u_pos (A:=A)) as U. destruct (sc_nr x e Hx He) as (s & c & E & (Fs & Fc) & Ns & Nc & Nn). destruct (sc_nr y e Hy He) as (s' & c' & E' & (Fs' & Fc') & Ns' & Nc' & Nn').
  unfold t, t2_and_then, t2_rotate, m3_rotate. rewrite E, E'. unfold m3_mul, m3_transpose, m3_new, Mrot. mred.
  split; apply mn3; mred; conjs; strip; (rot_dot; unfold a; trig).
Qed.
Lemma C84_rotation_angles_add_3d_pf : forall (A : arith) (x y : num A) (e : R), SinCosWithin x e -> SinCosWithin y e -> 0 <= e <= 1 / 128 ->
  let a := real_of x + real_of y in
  forall (rot : num A -> Transform3 (num A)) (M : R -> Matrix4x4 R),
    In (rot, M) [(t3_rotate_x, Mrot_x); (t3_rotate_y, Mrot_y); (t3_rotate_z, Mrot_z)] ->
  let t := t3_and_then (rot x) (rot y) in
  (MFinite4 (t3_forward t) /\ forall r c, (r < 4)%nat -> (c < 4)%nat -> Rabs (ent4 (RM4 (t3_forward t)) r c - ent4 (M a) r c) <= 5 * e + 6 * unit_roundoff A) /\
  (MFinite4 (t3_inv t) /\ forall r c, (r < 4)%nat -> (c < 4)%nat -> Rabs (ent4 (RM4 (t3_inv t)) r c - ent4 (M (- a)) r c) <= 5 * e + 6 * unit_roundoff A).
Proof.
  intros A x y e Hx Hy He a. pose proof (u_pos (A:=A)) as U. destruct (sc_nr x e Hx He) as (s & c & E & (Fs & Fc) & Ns & Nc & Nn). destruct (sc_nr y e Hy He) as (s' & c' & E' & (Fs' & Fc') & Ns' & Nc' & Nn').
  intros rot M [K | [K | [K | []]]]; injection K as <- <-; intros t; unfold t, t3_and_then, t3_rotate_x, t3_rotate_y, t3_rotate_z, m4_rotate_x, m4_rotate_y, m4_rotate_z; rewrite E, E'; unfold m4_mul, m4_transpose, m4_new, Mrot_x, Mrot_y, Mrot_z; mred;
  (split; apply mn4; mred; conjs; strip; (rot_dot; unfold a; trig)).
Qed.
Lemma len_axis {A : arith} (v : Vector3 (num A)) : v = v3_x_axis \/ v = v3_y_axis \/ v = v3_z_axis -> tx (v3_length v) = Fin 1.
Proof.
  intros H. unfold v3_length. rewrite tx_sqrt. assert (D : tx (v3_dot v v) = Fin 1).
  { destruct H as [-> | [-> | ->]]; unfold v3_dot, v3_x_axis, v3_y_axis, v3_z_axis, v3_new; mred; txs; reflexivity. }
  rewrite D. cbn [xsqrt]. rewrite Rlt_bool_false by lra. rewrite sqrt_1. apply xr_1.
Qed.
Lemma cc_1 {A : arith} (c : num A) : Finite c -> Rabs (real_of c) <= 1 -> Nr (sadd (ssub sone c) c) 1 (6 * unit_roundoff A).
Proof.
  intros F B. pose proof (u_pos (A:=A)) as U. destruct (real_of_1 (A:=A)) as [F1 V1].
  assert (N : Nr c (real_of c) 0) by (split; [assumption | rewrite Rminus_diag_eq, Rabs_R0 by reflexivity; lra]).
  pose proof (Nr_sub _ _ _ _ _ _ 1 1 (Nr_1 0 ltac:(lra)) N ltac:(rewrite V1, Rabs_R1; lra) B ltac:(lra)) as S.
  assert (B2 : Rabs (1 - real_of c) <= 2). { apply Rabs_le. apply Rabs_le_inv in B. lra. }
  pose proof (Nr_abs _ _ _ S) as B3. eapply Nr_eq; [eapply Nr_le; [apply (Nr_add _ _ _ _ _ _ (2 + / 100) 1 S N); lra|]|]; [|ring]. lra.
Qed.
Lemma re_tx {A : arith} (x y : num A) : tx x = tx y -> Finite y -> Finite x /\ real_of x = real_of y.
Proof. intros T F. destruct (real_of_eq _ _ T) as [F1 F2]. split; [tauto | apply F2; tauto]. Qed.
Lemma ax4 {A : arith} (m n : Matrix4x4 (num A)) i h : (i < 3)%nat ->
  let f := fun (x y : num A) (b : bool) => if b then Nr x 1 h else tx x = tx y /\ Finite y in
  f (m4_0 m) (m4_0 n) (Nat.eqb i 0) /\ f (m4_1 m) (m4_1 n) false /\ f (m4_2 m) (m4_2 n) false /\ f (m4_3 m) (m4_3 n) false /\
  f (m4_4 m) (m4_4 n) false /\ f (m4_5 m) (m4_5 n) (Nat.eqb i 1) /\ f (m4_6 m) (m4_6 n) false /\ f (m4_7 m) (m4_7 n) false /\
  f (m4_8 m) (m4_8 n) false /\ f (m4_9 m) (m4_9 n) false /\ f (m4_10 m) (m4_10 n) (Nat.eqb i 2) /\ f (m4_11 m) (m4_11 n) false /\
  f (m4_12 m) (m4_12 n) false /\ f (m4_13 m) (m4_13 n) false /\ f (m4_14 m) (m4_14 n) false /\ f (m4_15 m) (m4_15 n) false ->
  MFinite4 m /\ Rabs (ent4 (RM4 m) i i - 1) <= h /\
  forall r c, (r < 4)%nat -> (c < 4)%nat -> (r, c) <> (i, i) -> ent4 (RM4 m) r c = ent4 (RM4 n) r c.
Proof.
  intros Hi f H. assert (G : forall x y, f x y false -> Finite x /\ real_of x = real_of y) by (intros x y [T F]; now apply re_tx). assert (G1 : forall x y, f x y true -> Finite x /\ Rabs (real_of x - 1) <= h) by (intros x y [T F]; now split).
  assert (I : i = 0%nat \/ i = 1%nat \/ i = 2%nat) by lia. destruct I as [-> | [-> | ->]]; cbn [Nat.eqb] in H; decompose [and] H; clear H;
    repeat match goal with K : f _ _ false |- _ => apply G in K; destruct K as [? ?] | K : f _ _ true |- _ => apply G1 in K; destruct K as [? ?] end;
    (split; [repeat (constructor; [assumption|]); constructor|]); (split; [cbn; assumption|]); intros r c Hr Hc N;
    do 4 (destruct r as [|r]; [do 4 (destruct c as [|c]; [cbn; first [assumption | exfalso; apply N; reflexivity]|]); lia|]); lia.
Qed.
Lemma C84_axis_rotation_pf : forall (A : arith) (angle : num A), (let (s, c) := ssin_cos angle in Finite s /\ Finite c /\ Rabs (real_of c) <= 1) ->
  forall (axis : Vector3 (num A)) (rot : num A -> Transform3 (num A)) (i : nat),
    In (axis, rot, i) [(v3_x_axis, t3_rotate_x, 0%nat); (v3_y_axis, t3_rotate_y, 1%nat); (v3_z_axis, t3_rotate_z, 2%nat)] ->
  let t := t3_rotate_axis axis angle in let t' := rot angle in
  forall (side : Transform3 (num A) -> Matrix4x4 (num A)), side = t3_forward \/ side = t3_inv ->
  MFinite4 (side t) /\ Rabs (ent4 (RM4 (side t)) i i - 1) <= 6 * unit_roundoff A /\
  forall r c, (r < 4)%nat -> (c < 4)%nat -> (r, c) <> (i, i) -> ent4 (RM4 (side t)) r c = ent4 (RM4 (side t')) r c.
Proof.
  intros A angle H axis rot i K t t' side S.
  assert (L : tx (v3_length axis) = Fin 1). { apply len_axis. destruct K as [K | [K | [K | []]]]; injection K as <- <- <-; tauto. }
  assert (Hi : (i < 3)%nat) by (destruct K as [K | [K | [K | []]]]; injection K as <- <- <-; lia).
  assert (NX : tx (v3x (v3_normalize axis)) = tx (v3x axis)) by (apply div_1; exact L). assert (NY : tx (v3y (v3_normalize axis)) = tx (v3y axis)) by (apply div_1; exact L). assert (NZ : tx (v3z (v3_normalize axis)) = tx (v3z axis)) by (apply div_1; exact L).
  unfold t, t', t3_rotate_axis, m4_rotate_axis. destruct (ssin_cos angle) as [s c] eqn:E. destruct H as (Fs & Fc & B). pose proof (cc_1 c Fc B) as CC.
  set (n := v3_normalize axis) in *. clearbody n. clear L. pose proof (neg_finite _ Fs) as Fn. destruct (Zr_0 (A:=A)) as [F0 _]. destruct (real_of_1 (A:=A)) as [F1 _].
  assert (FC : Finite (ssub sone c)). { destruct CC as [CC _]. apply err_add in CC. tauto. }
  set (cc := ssub sone c) in *. clearbody cc.
  apply ax4; [exact Hi|].
  destruct K as [K | [K | [K | []]]]; injection K as <- <- <-; cbn [v3x v3y v3z v3_x_axis v3_y_axis v3_z_axis v3_new] in NX, NY, NZ; try rewrite tx_0 in NX; try rewrite tx_0 in NY; try rewrite tx_0 in NZ; try rewrite tx_1 in NX; try rewrite tx_1 in NY; try rewrite tx_1 in NZ;
    unfold t3_rotate_x, t3_rotate_y, t3_rotate_z, m4_rotate_x, m4_rotate_y, m4_rotate_z; rewrite E; destruct S as [-> | ->]; unfold m4_transpose, m4_new; mred; cbn [Nat.eqb]; fin Fs; fin Fc; fin FC; conjs; try assumption.
  all: try (apply (Nr_tx _ (sadd cc c)); [|exact CC]; rewrite (tx_add _ c), (tx_add cc c); do 2 f_equal; txs; reflexivity).
  all: txs; reflexivity.
Qed.
