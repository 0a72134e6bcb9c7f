(** Proofs: chains of transforms in floating point (C81). *)
From Coq Require Import Bool NArith ZArith Reals List Lra Lia.
From Flocq Require Import Core.Zaux Core.Raux Core.Defs Core.Generic_fmt Core.FLT IEEE754.BinarySingleNaN.
From Verif Require Import Scalar Types Vector2 Vector3 Point2 Point3 Ray BoundingBox2 BoundingBox3 Transform2 Transform3 Float
  XReal OrdLaws Arith SpecOrder SpecStruct SpecFloat SpecReal SpecErr SpecSame SpecChain ExactMat FloatX XArith FloatLaws FloatTrans ErrBase FloatErr ChainReal ExVals.
Import ListNotations.
Local Open Scope R_scope.
Lemma fin_dot3 {A : arith} (a b c d e f : num A) : Finite (sadd (sadd (smul a b) (smul c d)) (smul e f)) -> (Finite a /\ Finite c /\ Finite e) /\ (Finite b /\ Finite d /\ Finite f).
Proof. intros H. destruct (err_add _ _ H) as (H1 & H2 & _). destruct (err_add _ _ H1) as (H3 & H4 & _). destruct (err_mul _ _ H2) as (? & ? & _). destruct (err_mul _ _ H3) as (? & ? & _). destruct (err_mul _ _ H4) as (? & ? & _). tauto. Qed.
Lemma fin_dot4 {A : arith} (a b c d e f g h : num A) : Finite (sadd (sadd (sadd (smul a b) (smul c d)) (smul e f)) (smul g h)) -> (Finite a /\ Finite c /\ Finite e /\ Finite g) /\ (Finite b /\ Finite d /\ Finite f /\ Finite h).
Proof. intros H. destruct (err_add _ _ H) as (H1 & H2 & _). apply fin_dot3 in H1. destruct (err_mul _ _ H2) as (? & ? & _). tauto. Qed.
Lemma Forall_cons_iff' {T} (P : T -> Prop) a l : Forall P (a :: l) -> P a /\ Forall P l.
Proof. intros H. inversion H; subst. tauto. Qed.
Ltac invF := repeat match goal with H : Forall _ (_ :: _) |- _ => apply Forall_cons_iff' in H; let a := fresh "L" in destruct H as [a H] end.
Lemma mul_fin3 {A : arith} (a b : Matrix3x3 (num A)) : MFinite3 (m3_mul a b) -> MFinite3 a /\ MFinite3 b.
Proof.
  unfold MFinite3. intros H. unfold m3_mul, m3_new in H. cbn [m3_0 m3_1 m3_2 m3_3 m3_4 m3_5 m3_6 m3_7 m3_8] in H. invF.
  repeat match goal with H : Finite (sadd (sadd _ _) _) |- _ => apply fin_dot3 in H; decompose [and] H; clear H end.
  split; repeat (constructor; [assumption|]); constructor.
Qed.
Lemma mul_fin4 {A : arith} (a b : Matrix4x4 (num A)) : MFinite4 (m4_mul a b) -> MFinite4 a /\ MFinite4 b.
Proof.
  unfold MFinite4. intros H. unfold m4_mul, m4_new in H. cbn [m4_0 m4_1 m4_2 m4_3 m4_4 m4_5 m4_6 m4_7 m4_8 m4_9 m4_10 m4_11 m4_12 m4_13 m4_14 m4_15] in H. invF.
  repeat match goal with H : Finite (sadd (sadd (sadd _ _) _) _) |- _ => apply fin_dot4 in H; decompose [and] H; clear H end.
  split; repeat (constructor; [assumption|]); constructor.
Qed.
Lemma Eqs_0 {A : arith} : Eqs (szero : num A) szero.
Proof. apply Eqs_tx. now rewrite tx_0. Qed.
Lemma Eqs_1 {A : arith} : Eqs (sone : num A) sone.
Proof. apply Eqs_tx. now rewrite tx_1. Qed.
Lemma Eqs_tx0 {A : arith} (x : num A) : Eqs x szero <-> tx x = Fin 0.
Proof. rewrite Eqs_tx, tx_0. split; [tauto|]. intros ->. split; [reflexivity | discriminate]. Qed.
Lemma Eqs_tx1 {A : arith} (x : num A) : Eqs x sone <-> tx x = Fin 1.
Proof. rewrite Eqs_tx, tx_1. split; [tauto|]. intros ->. split; [reflexivity | discriminate]. Qed.
Ltac finx := repeat match goal with H : Finite ?x |- _ => apply Finite_real in H end.
Lemma aff_mul3 {A : arith} (a b : Matrix3x3 (num A)) : MFinite3 (m3_mul a b) -> Affine3x3 a -> Affine3x3 b -> Affine3x3 (m3_mul a b).
Proof.
  intros F (A0 & A1 & A2) (B0 & B1 & B2). apply mul_fin3 in F. destruct F as [_ Fb]. unfold MFinite3 in Fb. invF. apply Eqs_tx0 in A0, A1, B0, B1. apply Eqs_tx1 in A2, B2. unfold Affine3x3. rewrite !Eqs_tx0, Eqs_tx1. finx.
  unfold m3_mul, m3_new. cbn [m3_0 m3_1 m3_2 m3_3 m3_4 m3_5 m3_6 m3_7 m3_8].
  rewrite !tx_add, !tx_mul, A0, A1, A2, B0, B1, B2, L, L0, L1, L2, L3, L4. cbn [xmul]. rewrite !Rmult_0_l, !Rmult_0_r, !Rmult_1_l, !xr_0. cbn [xadd]. rewrite !Rplus_0_l, !xr_0, !xr_1. cbn [xadd]. rewrite !Rplus_0_l, !xr_0, !xr_1. tauto.
Qed.
Lemma aff_mul4 {A : arith} (a b : Matrix4x4 (num A)) : MFinite4 (m4_mul a b) -> Affine4x4 a -> Affine4x4 b -> Affine4x4 (m4_mul a b).
Proof.
  intros F (A0 & A1 & A2 & A3) (B0 & B1 & B2 & B3). apply mul_fin4 in F. destruct F as [_ Fb]. unfold MFinite4 in Fb. invF. apply Eqs_tx0 in A0, A1, A2, B0, B1, B2. apply Eqs_tx1 in A3, B3. unfold Affine4x4. rewrite !Eqs_tx0, Eqs_tx1. finx.
  unfold m4_mul, m4_new. cbn [m4_0 m4_1 m4_2 m4_3 m4_4 m4_5 m4_6 m4_7 m4_8 m4_9 m4_10 m4_11 m4_12 m4_13 m4_14 m4_15].
  rewrite !tx_add, !tx_mul, A0, A1, A2, A3, B0, B1, B2, B3, L, L0, L1, L2, L3, L4, L5, L6, L7, L8, L9, L10. cbn [xmul]. rewrite !Rmult_0_l, !Rmult_0_r, !Rmult_1_l, !xr_0. cbn [xadd]. rewrite !Rplus_0_l, !xr_0, ?xr_1. cbn [xadd]. rewrite !Rplus_0_l, !xr_0, ?xr_1. cbn [xadd]. rewrite !Rplus_0_l, !xr_0, ?xr_1. tauto.
Qed.
Lemma aff_sz {A : arith} : Eqs (szero : num A) szero /\ Eqs (sone : num A) sone.
Proof. split; [apply Eqs_0 | apply Eqs_1]. Qed.
Lemma C81_stays_affine_2d_pf : forall (A : arith) (t : Transform2 (num A)), Affine_built2 t -> MFinite3 (t2_forward t) -> Affine3x3 (t2_forward t).
Proof.
  intros A t H. enough (Q : (MFinite3 (t2_forward t) -> Affine3x3 (t2_forward t)) /\ (MFinite3 (t2_inv t) -> Affine3x3 (t2_inv t))) by apply Q.
  pose proof (aff_sz (A:=A)) as [Z0 Z1].
  induction H as [| | | |  | t u Ht [IH1 IH2] Hu [IH3 IH4] | t Ht [IH1 IH2]];
    try (split; intros _; unfold Affine3x3; cbn; tauto); try (split; intros _; unfold Affine3x3; unfold t2_rotate, m3_rotate; destruct (ssin_cos a); cbn; tauto).
  - split; intros F.
    + apply aff_mul3; [exact F | |]; apply mul_fin3 in F; tauto.
    + apply aff_mul3; [exact F | |]; apply mul_fin3 in F; tauto.
  - split; assumption.
Qed.
Lemma C81_stays_affine_3d_pf : forall (A : arith) (t : Transform3 (num A)), Affine_built3 t -> MFinite4 (t3_forward t) -> Affine4x4 (t3_forward t).
Proof.
  intros A t H. enough (Q : (MFinite4 (t3_forward t) -> Affine4x4 (t3_forward t)) /\ (MFinite4 (t3_inv t) -> Affine4x4 (t3_inv t))) by apply Q.
  pose proof (aff_sz (A:=A)) as [Z0 Z1].
  induction H as [| | | | | | | | t u Ht [IH1 IH2] Hu [IH3 IH4] | t Ht [IH1 IH2]];
    try (split; intros _; unfold Affine4x4; cbn; tauto); try (split; intros _; unfold Affine4x4; unfold t3_rotate_x, t3_rotate_y, t3_rotate_z, t3_rotate_axis, m4_rotate_x, m4_rotate_y, m4_rotate_z, m4_rotate_axis; destruct (ssin_cos a); cbn; tauto).
  - split; intros F.
    + apply aff_mul4; [exact F | |]; apply mul_fin4 in F; tauto.
    + apply aff_mul4; [exact F | |]; apply mul_fin4 in F; tauto.
  - split; assumption.
Qed.
Lemma same_tx {A : arith} (x y : num A) : tx x = tx y -> Same x y.
Proof.
  intros E. unfold Same. destruct (tx y) eqn:Ey.
  1-3: left; apply Eqs_tx; rewrite E, Ey; split; [reflexivity | intros Q; discriminate Q].
  right. rewrite !tx_nan, E, Ey. split; reflexivity.
Qed.
Lemma xadd_comm x y : xadd x y = xadd y x.
Proof. destruct x, y; cbn; try reflexivity. f_equal. apply Rplus_comm. Qed.
Lemma org3 {A : arith} (a b e w : num A) : Finite a -> Finite b -> tx w = Fin 1 ->
  tx (sdiv (sadd (sadd (smul a szero) (smul b szero)) e) w) = tx e.
Proof. intros Fa Fb W. fin Fa. fin Fb. rewrite div_1 by exact W. txs. apply xr_tx. Qed.
Lemma org4 {A : arith} (a b c e w : num A) : Finite a -> Finite b -> Finite c -> tx w = Fin 1 ->
  tx (sdiv (sadd (sadd (sadd (smul a szero) (smul b szero)) (smul c szero)) e) w) = tx e.
Proof. intros Fa Fb Fc W. fin Fa. fin Fb. fin Fc. rewrite div_1 by exact W. txs. apply xr_tx. Qed.
Lemma point_sum {A : arith} (s e w o : num A) : tx w = Fin 1 -> tx o = tx e -> Same (sdiv (sadd s e) w) (sadd o s).
Proof. intros W O. apply same_tx. rewrite div_1 by exact W. rewrite !tx_add, O, xadd_comm. reflexivity. Qed.
Lemma fin_org2 {A : arith} : Finite2 (p2_origin : Point2 (num A)).
Proof. intros []; apply Finite_intro with 0; apply tx_0. Qed.
Lemma fin_org3 {A : arith} : Finite3 (p3_origin : Point3 (num A)).
Proof. intros []; apply Finite_intro with 0; apply tx_0. Qed.
Lemma C81_point_is_origin_plus_vector_2d_pf : forall (A : arith) (t : Transform2 (num A)) (p : Point2 (num A)), Affine_built2 t -> MFinite3 (t2_forward t) -> Finite2 p ->
  PSame2 (t2_transform_point t p) (p2_add (t2_transform_point t p2_origin) (t2_transform_vector t (v2_from p))).
Proof.
  intros A t p B F Fp. pose proof (C81_stays_affine_2d_pf A t B F) as AF. pose proof (Affine3_w _ p AF Fp) as W. pose proof (Affine3_w _ p2_origin AF fin_org2) as W0. unfold MFinite3 in F. invF.
  intros []; (apply point_sum; [exact W | apply org3; [assumption .. | exact W0]]).
Qed.
Lemma C81_point_is_origin_plus_vector_3d_pf : forall (A : arith) (t : Transform3 (num A)) (p : Point3 (num A)), Affine_built3 t -> MFinite4 (t3_forward t) -> Finite3 p ->
  PSame3 (t3_transform_point t p) (p3_add (t3_transform_point t p3_origin) (t3_transform_vector t (v3_from p))).
Proof.
  intros A t p B F Fp. pose proof (C81_stays_affine_3d_pf A t B F) as AF. pose proof (Affine4_w _ p AF Fp) as W. pose proof (Affine4_w _ p3_origin AF fin_org3) as W0. unfold MFinite4 in F. invF.
  intros []; (apply point_sum; [exact W | apply org4; [assumption .. | exact W0]]).
Qed.
Lemma snoc_fold {S T : Type} (f : S -> T -> S) l x a : fold_left f (l ++ [x]) a = f (fold_left f l a) x.
Proof. now rewrite fold_left_app. Qed.
Lemma g_pow (u : R) n k : 0 <= u -> (1 + u) ^ n * (1 + u) ^ (n * k) = (1 + u) ^ (n * (k + 1)).
Proof. intros _. rewrite <- pow_add. f_equal. lia. Qed.
Lemma g_ge1 (u : R) n : 0 <= u -> 1 <= (1 + u) ^ n.
Proof. intros. apply pow_R1_Rle. lra. Qed.
Lemma prod_acc2 {A : arith} (a b : Matrix3x3 (num A)) r c : MFinite3 (m3_mul a b) -> (r < 3)%nat -> (c < 3)%nat ->
  Rabs (ent3 (RM3 (m3_mul a b)) r c - mat_mul 3 (ent3 (RM3 a)) (ent3 (RM3 b)) r c) <=
  ((1 + unit_roundoff A) ^ 3 - 1) * mat_mul 3 (mat_abs (ent3 (RM3 a))) (mat_abs (ent3 (RM3 b))) r c + 3 * min_subnormal A.
Proof.
  intros F Hr Hc. unfold MFinite3, m3_mul, m3_new in F. cbn [m3_0 m3_1 m3_2 m3_3 m3_4 m3_5 m3_6 m3_7 m3_8] in F. invF.
  assert (R1 : r = 0%nat \/ r = 1%nat \/ r = 2%nat) by lia. assert (C1 : c = 0%nat \/ c = 1%nat \/ c = 2%nat) by lia. repeat (destruct R1 as [->|R1]; [|]); try subst r; repeat (destruct C1 as [->|C1]; [|]); try subst c; (unfold mat_mul, mat_abs; cbn -[pow]; rewrite !Rplus_0_l; eapply Apx_bound; [|match goal with H : _ |- _ => exact (Apx_dot3 _ _ _ _ _ _ H) end|]; [lia | lra]).
Qed.
Lemma prod_acc3 {A : arith} (a b : Matrix4x4 (num A)) r c : MFinite4 (m4_mul a b) -> (r < 4)%nat -> (c < 4)%nat ->
  Rabs (ent4 (RM4 (m4_mul a b)) r c - mat_mul 4 (ent4 (RM4 a)) (ent4 (RM4 b)) r c) <=
  ((1 + unit_roundoff A) ^ 4 - 1) * mat_mul 4 (mat_abs (ent4 (RM4 a))) (mat_abs (ent4 (RM4 b))) r c + 4 * min_subnormal A.
Proof.
  intros F Hr Hc. unfold MFinite4, m4_mul, m4_new in F. cbn [m4_0 m4_1 m4_2 m4_3 m4_4 m4_5 m4_6 m4_7 m4_8 m4_9 m4_10 m4_11 m4_12 m4_13 m4_14 m4_15] in F. invF.
  assert (R1 : r = 0%nat \/ r = 1%nat \/ r = 2%nat \/ r = 3%nat) by lia. assert (C1 : c = 0%nat \/ c = 1%nat \/ c = 2%nat \/ c = 3%nat) by lia. repeat (destruct R1 as [->|R1]; [|]); try subst r; repeat (destruct C1 as [->|C1]; [|]); try subst c; (unfold mat_mul, mat_abs; cbn -[pow]; rewrite !Rplus_0_l; eapply Apx_bound; [|match goal with H : _ |- _ => exact (Apx_dot4 _ _ _ _ _ _ _ _ H) end|]; [lia | lra]).
Qed.
Lemma fold_fin2 {A : arith} (l : list (Transform2 (num A))) x t0 : let f := fold_left t2_and_then l t0 in MFinite3 (t2_forward (t2_and_then f x)) -> MFinite3 (t2_forward f) /\ MFinite3 (t2_forward x).
Proof. cbv zeta. intros F. apply mul_fin3 in F. tauto. Qed.
Lemma id_ent2 {A : arith} r c : (r < 3)%nat -> (c < 3)%nat -> ent3 (RM3 (m3_identity : Matrix3x3 (num A))) r c = mat_id r c.
Proof. intros Hr Hc. destruct (real_of_1 (A:=A)) as [_ V1]. assert (V0 : real_of (szero : num A) = 0) by (apply (Finite_intro (szero : num A) 0), tx_0). assert (R1 : r = 0%nat \/ r = 1%nat \/ r = 2%nat) by lia. assert (C1 : c = 0%nat \/ c = 1%nat \/ c = 2%nat) by lia. repeat (destruct R1 as [->|R1]; [|]); try subst r; repeat (destruct C1 as [->|C1]; [|]); try subst c; (cbn; first [exact V0 | exact V1]). Qed.
Lemma fold_fin3 {A : arith} (l : list (Transform3 (num A))) x t0 : let f := fold_left t3_and_then l t0 in MFinite4 (t3_forward (t3_and_then f x)) -> MFinite4 (t3_forward f) /\ MFinite4 (t3_forward x).
Proof. cbv zeta. intros F. apply mul_fin4 in F. tauto. Qed.
Lemma id_ent3 {A : arith} r c : (r < 4)%nat -> (c < 4)%nat -> ent4 (RM4 (m4_identity : Matrix4x4 (num A))) r c = mat_id r c.
Proof. intros Hr Hc. destruct (real_of_1 (A:=A)) as [_ V1]. assert (V0 : real_of (szero : num A) = 0) by (apply (Finite_intro (szero : num A) 0), tx_0). assert (R1 : r = 0%nat \/ r = 1%nat \/ r = 2%nat \/ r = 3%nat) by lia. assert (C1 : c = 0%nat \/ c = 1%nat \/ c = 2%nat \/ c = 3%nat) by lia. repeat (destruct R1 as [->|R1]; [|]); try subst r; repeat (destruct C1 as [->|C1]; [|]); try subst c; (cbn; first [exact V0 | exact V1]). Qed.
Lemma C81_chain_matrix_2d_pf : forall (A : arith) (l : list (Transform2 (num A))) (r c : nat), (r < 3)%nat -> (c < 3)%nat ->
  let t := fold_left t2_and_then l t2_identity in let u := unit_roundoff A in
  let M := map (fun x => ent3 (RM3 (t2_forward x))) l in let B := map mat_abs M in
  MFinite3 (t2_forward t) ->
  Rabs (ent3 (RM3 (t2_forward t)) r c - chain 3 M r c) <= ((1 + u) ^ (3 * length l) - 1) * chain 3 B r c + min_subnormal A * floor_chain 3 ((1 + u) ^ 3) 3 B r c.
Proof.
  intros A l. cbv zeta. assert (U : 0 <= unit_roundoff A) by apply (u_pos (A:=A)). induction l as [|x l IH] using rev_ind; intros r c Hr Hc F.
  - cbn [map fold_left length chain floor_chain t2_forward t2_identity t2_new]. rewrite id_ent2 by assumption. cbn. rewrite Rminus_diag_eq, Rabs_R0 by reflexivity. lra.
  - rewrite !map_app. cbn [map]. rewrite snoc_fold in F |- *. pose proof (fold_fin2 l x t2_identity F) as [F0 Fx]. rewrite chain_snoc, chain_snoc, floor_snoc, app_length. cbn [length]. rewrite <- g_pow by exact U.
    set (t0 := fold_left t2_and_then l t2_identity) in *. change (t2_forward (t2_and_then t0 x)) with (m3_mul (t2_forward x) (t2_forward t0)) in *.
    exact (bstep 3 (fun k => ent3 (RM3 (t2_forward x)) r k) (fun k => ent3 (RM3 (t2_forward t0)) k c) _ _ _ ((1 + unit_roundoff A) ^ 3) _ (min_subnormal A) 3 _ (g_ge1 _ _ U) (fun k Hk => IH k c Hk Hc F0)
      (fun k Hk => eq_ind_r (fun z => _ <= chain 3 z k c) (chain_abs 3 _ (fun y => ent3 (RM3 (t2_forward y))) l k c Hk Hc) (map_map _ _ l)) (prod_acc2 _ _ r c F Hr Hc)).
Qed.
Lemma C81_chain_matrix_3d_pf : forall (A : arith) (l : list (Transform3 (num A))) (r c : nat), (r < 4)%nat -> (c < 4)%nat ->
  let t := fold_left t3_and_then l t3_identity in let u := unit_roundoff A in
  let M := map (fun x => ent4 (RM4 (t3_forward x))) l in let B := map mat_abs M in
  MFinite4 (t3_forward t) ->
  Rabs (ent4 (RM4 (t3_forward t)) r c - chain 4 M r c) <= ((1 + u) ^ (4 * length l) - 1) * chain 4 B r c + min_subnormal A * floor_chain 4 ((1 + u) ^ 4) 4 B r c.
Proof.
  intros A l. cbv zeta. assert (U : 0 <= unit_roundoff A) by apply (u_pos (A:=A)). induction l as [|x l IH] using rev_ind; intros r c Hr Hc F.
  - cbn [map fold_left length chain floor_chain t3_forward t3_identity t3_new]. rewrite id_ent3 by assumption. cbn. rewrite Rminus_diag_eq, Rabs_R0 by reflexivity. lra.
  - rewrite !map_app. cbn [map]. rewrite snoc_fold in F |- *. pose proof (fold_fin3 l x t3_identity F) as [F0 Fx]. rewrite chain_snoc, chain_snoc, floor_snoc, app_length. cbn [length]. rewrite <- g_pow by exact U.
    set (t0 := fold_left t3_and_then l t3_identity) in *. change (t3_forward (t3_and_then t0 x)) with (m4_mul (t3_forward x) (t3_forward t0)) in *.
    exact (bstep 4 (fun k => ent4 (RM4 (t3_forward x)) r k) (fun k => ent4 (RM4 (t3_forward t0)) k c) _ _ _ ((1 + unit_roundoff A) ^ 4) _ (min_subnormal A) 4 _ (g_ge1 _ _ U) (fun k Hk => IH k c Hk Hc F0)
      (fun k Hk => eq_ind_r (fun z => _ <= chain 4 z k c) (chain_abs 4 _ (fun y => ent4 (RM4 (t3_forward y))) l k c Hk Hc) (map_map _ _ l)) (prod_acc3 _ _ r c F Hr Hc)).
Qed.
Lemma C81_chain_inverse_2d_pf : forall (A : arith) (l : list (Transform2 (num A))) (r c : nat), (r < 3)%nat -> (c < 3)%nat ->
  let t := t2_inverse (fold_left t2_and_then l t2_identity) in let u := unit_roundoff A in
  let M := map (fun x => ent3 (RM3 (t2_forward (t2_inverse x)))) l in let B := map mat_abs M in
  MFinite3 (t2_forward t) ->
  Rabs (ent3 (RM3 (t2_forward t)) r c - chain_back 3 M r c) <= ((1 + u) ^ (3 * length l) - 1) * chain_back 3 B r c + min_subnormal A * floor_back 3 ((1 + u) ^ 3) 3 B r c.
Proof.
  intros A l. cbv zeta. assert (U : 0 <= unit_roundoff A) by apply (u_pos (A:=A)). induction l as [|x l IH] using rev_ind; intros r c Hr Hc F.
  - cbn [map fold_left length chain_back floor_back t2_forward t2_inverse t2_inv t2_identity t2_new]. rewrite id_ent2 by assumption. cbn. rewrite Rminus_diag_eq, Rabs_R0 by reflexivity. lra.
  - rewrite !map_app. cbn [map]. rewrite snoc_fold in F |- *. rewrite back_snoc, back_snoc, fback_snoc, app_length. cbn [length]. rewrite <- g_pow by exact U.
    set (t0 := fold_left t2_and_then l t2_identity) in *. change (t2_forward (t2_inverse (t2_and_then t0 x))) with (m3_mul (t2_forward (t2_inverse t0)) (t2_forward (t2_inverse x))) in *. pose proof (mul_fin3 _ _ F) as [F0 Fx].
    pose proof (prod_acc2 _ _ r c F Hr Hc) as P. unfold mat_mul in P |- *.
    rewrite (sum_ext 3 (fun k => ent3 (RM3 (t2_forward (t2_inverse t0))) r k * ent3 (RM3 (t2_forward (t2_inverse x))) k c) (fun k => ent3 (RM3 (t2_forward (t2_inverse x))) k c * ent3 (RM3 (t2_forward (t2_inverse t0))) r k)) in P by (intros; apply Rmult_comm).
    rewrite (sum_ext 3 (fun k => mat_abs (ent3 (RM3 (t2_forward (t2_inverse t0)))) r k * mat_abs (ent3 (RM3 (t2_forward (t2_inverse x)))) k c) (fun k => Rabs (ent3 (RM3 (t2_forward (t2_inverse x))) k c) * Rabs (ent3 (RM3 (t2_forward (t2_inverse t0))) r k))) in P by (intros; apply Rmult_comm).
    set (MM := map (fun y => ent3 (RM3 (t2_forward (t2_inverse y)))) l) in *.
    rewrite (sum_ext 3 (fun k => chain_back 3 MM r k * ent3 (RM3 (t2_forward (t2_inverse x))) k c) (fun k => ent3 (RM3 (t2_forward (t2_inverse x))) k c * chain_back 3 MM r k)) by (intros; apply Rmult_comm).
    rewrite (sum_ext 3 (fun k => chain_back 3 (map mat_abs MM) r k * mat_abs (ent3 (RM3 (t2_forward (t2_inverse x)))) k c) (fun k => Rabs (ent3 (RM3 (t2_forward (t2_inverse x))) k c) * chain_back 3 (map mat_abs MM) r k)) by (intros; apply Rmult_comm).
    rewrite (sum_ext 3 (fun k => floor_back 3 ((1 + unit_roundoff A) ^ 3) 3 (map mat_abs MM) r k * mat_abs (ent3 (RM3 (t2_forward (t2_inverse x)))) k c) (fun k => Rabs (ent3 (RM3 (t2_forward (t2_inverse x))) k c) * floor_back 3 ((1 + unit_roundoff A) ^ 3) 3 (map mat_abs MM) r k)) by (intros; apply Rmult_comm).
    exact (bstep 3 (fun k => ent3 (RM3 (t2_forward (t2_inverse x))) k c) (fun k => ent3 (RM3 (t2_forward (t2_inverse t0))) r k) _ _ _ ((1 + unit_roundoff A) ^ 3) _ (min_subnormal A) 3 _ (g_ge1 _ _ U) (fun k Hk => IH r k Hr Hk F0)
      (fun k Hk => eq_ind_r (fun z => _ <= chain_back 3 z r k) (back_abs 3 _ (fun y => ent3 (RM3 (t2_forward (t2_inverse y)))) l r k Hr Hk) (map_map _ _ l)) P).
Qed.
Lemma C81_chain_inverse_3d_pf : forall (A : arith) (l : list (Transform3 (num A))) (r c : nat), (r < 4)%nat -> (c < 4)%nat ->
  let t := t3_inverse (fold_left t3_and_then l t3_identity) in let u := unit_roundoff A in
  let M := map (fun x => ent4 (RM4 (t3_forward (t3_inverse x)))) l in let B := map mat_abs M in
  MFinite4 (t3_forward t) ->
  Rabs (ent4 (RM4 (t3_forward t)) r c - chain_back 4 M r c) <= ((1 + u) ^ (4 * length l) - 1) * chain_back 4 B r c + min_subnormal A * floor_back 4 ((1 + u) ^ 4) 4 B r c.
Proof.
  intros A l. cbv zeta. assert (U : 0 <= unit_roundoff A) by apply (u_pos (A:=A)). induction l as [|x l IH] using rev_ind; intros r c Hr Hc F.
  - cbn [map fold_left length chain_back floor_back t3_forward t3_inverse t3_inv t3_identity t3_new]. rewrite id_ent3 by assumption. cbn. rewrite Rminus_diag_eq, Rabs_R0 by reflexivity. lra.
  - rewrite !map_app. cbn [map]. rewrite snoc_fold in F |- *. rewrite back_snoc, back_snoc, fback_snoc, app_length. cbn [length]. rewrite <- g_pow by exact U.
    set (t0 := fold_left t3_and_then l t3_identity) in *. change (t3_forward (t3_inverse (t3_and_then t0 x))) with (m4_mul (t3_forward (t3_inverse t0)) (t3_forward (t3_inverse x))) in *. pose proof (mul_fin4 _ _ F) as [F0 Fx].
    pose proof (prod_acc3 _ _ r c F Hr Hc) as P. unfold mat_mul in P |- *.
    rewrite (sum_ext 4 (fun k => ent4 (RM4 (t3_forward (t3_inverse t0))) r k * ent4 (RM4 (t3_forward (t3_inverse x))) k c) (fun k => ent4 (RM4 (t3_forward (t3_inverse x))) k c * ent4 (RM4 (t3_forward (t3_inverse t0))) r k)) in P by (intros; apply Rmult_comm).
    rewrite (sum_ext 4 (fun k => mat_abs (ent4 (RM4 (t3_forward (t3_inverse t0)))) r k * mat_abs (ent4 (RM4 (t3_forward (t3_inverse x)))) k c) (fun k => Rabs (ent4 (RM4 (t3_forward (t3_inverse x))) k c) * Rabs (ent4 (RM4 (t3_forward (t3_inverse t0))) r k))) in P by (intros; apply Rmult_comm).
    set (MM := map (fun y => ent4 (RM4 (t3_forward (t3_inverse y)))) l) in *.
    rewrite (sum_ext 4 (fun k => chain_back 4 MM r k * ent4 (RM4 (t3_forward (t3_inverse x))) k c) (fun k => ent4 (RM4 (t3_forward (t3_inverse x))) k c * chain_back 4 MM r k)) by (intros; apply Rmult_comm).
    rewrite (sum_ext 4 (fun k => chain_back 4 (map mat_abs MM) r k * mat_abs (ent4 (RM4 (t3_forward (t3_inverse x)))) k c) (fun k => Rabs (ent4 (RM4 (t3_forward (t3_inverse x))) k c) * chain_back 4 (map mat_abs MM) r k)) by (intros; apply Rmult_comm).
    rewrite (sum_ext 4 (fun k => floor_back 4 ((1 + unit_roundoff A) ^ 4) 4 (map mat_abs MM) r k * mat_abs (ent4 (RM4 (t3_forward (t3_inverse x)))) k c) (fun k => Rabs (ent4 (RM4 (t3_forward (t3_inverse x))) k c) * floor_back 4 ((1 + unit_roundoff A) ^ 4) 4 (map mat_abs MM) r k)) by (intros; apply Rmult_comm).
    exact (bstep 4 (fun k => ent4 (RM4 (t3_forward (t3_inverse x))) k c) (fun k => ent4 (RM4 (t3_forward (t3_inverse t0))) r k) _ _ _ ((1 + unit_roundoff A) ^ 4) _ (min_subnormal A) 4 _ (g_ge1 _ _ U) (fun k Hk => IH r k Hr Hk F0)
      (fun k Hk => eq_ind_r (fun z => _ <= chain_back 4 z r k) (back_abs 4 _ (fun y => ent4 (RM4 (t3_forward (t3_inverse y)))) l r k Hr Hk) (map_map _ _ l)) P).
Qed.
Lemma fold_aff2 {A : arith} (l : list (Transform2 (num A))) : Forall (fun x => Affine3x3 (t2_forward x)) l -> MFinite3 (t2_forward (fold_left t2_and_then l t2_identity)) -> Affine3x3 (t2_forward (fold_left t2_and_then l t2_identity)).
Proof.
  induction l as [|x l IH] using rev_ind; intros H F. - pose proof (aff_sz (A:=A)) as [Z0 Z1]. unfold Affine3x3. cbn. tauto.
  - apply Forall_app in H. destruct H as [H1 H2]. apply Forall_cons_iff' in H2. rewrite snoc_fold in F |- *. pose proof (fold_fin2 l x t2_identity F) as [F0 Fx]. apply aff_mul3; [exact F | tauto | auto].
Qed.
Lemma apply_le_pow2 {A : arith} (u s e : R) : 0 <= u -> 0 <= s -> ((1 + u) ^ 2 - 1) * s + e <= ((1 + u) ^ 3 - 1) * s + e.
Proof. intros U S. apply Rplus_le_compat_r. apply Rmult_le_compat_r; [exact S|]. apply Rplus_le_compat_r. apply Rle_pow; [lra | lia]. Qed.
Lemma dim_lt2 (d : Dimension2) : (dim2_index d < 3)%nat.
Proof. destruct d; cbn; lia. Qed.
Lemma hom_abs2 (p : Point2 R) k : Rabs (hom2 p k) = hom2 (absP2 p) k.
Proof. unfold hom2, absP2. destruct k as [|[|[|k]]]; cbn; try reflexivity; try apply Rabs_R1; destruct k; apply Rabs_R0. Qed.
Lemma dir_abs2 (v : Vector2 R) k : Rabs (dir2 v k) = dir2 (absV2 v) k.
Proof. unfold dir2, absV2. destruct k as [|[|[|k]]]; cbn; try reflexivity; try apply Rabs_R0; destruct k; apply Rabs_R0. Qed.
Lemma fold_aff3 {A : arith} (l : list (Transform3 (num A))) : Forall (fun x => Affine4x4 (t3_forward x)) l -> MFinite4 (t3_forward (fold_left t3_and_then l t3_identity)) -> Affine4x4 (t3_forward (fold_left t3_and_then l t3_identity)).
Proof.
  induction l as [|x l IH] using rev_ind; intros H F. - pose proof (aff_sz (A:=A)) as [Z0 Z1]. unfold Affine4x4. cbn. tauto.
  - apply Forall_app in H. destruct H as [H1 H2]. apply Forall_cons_iff' in H2. rewrite snoc_fold in F |- *. pose proof (fold_fin3 l x t3_identity F) as [F0 Fx]. apply aff_mul4; [exact F | tauto | auto].
Qed.
Lemma apply_le_pow3 {A : arith} (u s e : R) : 0 <= u -> 0 <= s -> ((1 + u) ^ 3 - 1) * s + e <= ((1 + u) ^ 4 - 1) * s + e.
Proof. intros U S. apply Rplus_le_compat_r. apply Rmult_le_compat_r; [exact S|]. apply Rplus_le_compat_r. apply Rle_pow; [lra | lia]. Qed.
Lemma dim_lt3 (d : Dimension3) : (dim3_index d < 4)%nat.
Proof. destruct d; cbn; lia. Qed.
Lemma hom_abs3 (p : Point3 R) k : Rabs (hom3 p k) = hom3 (absP3 p) k.
Proof. unfold hom3, absP3. destruct k as [|[|[|[|k]]]]; cbn; try reflexivity; try apply Rabs_R1; destruct k; apply Rabs_R0. Qed.
Lemma dir_abs3 (v : Vector3 R) k : Rabs (dir3 v k) = dir3 (absV3 v) k.
Proof. unfold dir3, absV3. destruct k as [|[|[|[|k]]]]; cbn; try reflexivity; try apply Rabs_R0; destruct k; apply Rabs_R0. Qed.
Lemma C81_chain_point_2d_pf : forall (A : arith) (l : list (Transform2 (num A))) (p : Point2 (num A)) (d : Dimension2),
  let t := fold_left t2_and_then l t2_identity in let u := unit_roundoff A in
  let M := map (fun x => ent3 (RM3 (t2_forward x))) l in let B := map mat_abs M in let P := hom2 (absP2 (RP2 p)) in
  Forall (fun x => Affine3x3 (t2_forward x)) l -> MFinite3 (t2_forward t) -> Finite2 p -> Finite (coord2 (t2_transform_point t p) d) ->
  Rabs (real_of (coord2 (t2_transform_point t p) d) - mat_apply 3 (chain 3 M) (hom2 (RP2 p)) (dim2_index d)) <=
  ((1 + u) ^ (3 * (length l + 1)) - 1) * mat_apply 3 (chain 3 B) P (dim2_index d) +
  min_subnormal A * ((1 + u) ^ 3 * mat_apply 3 (floor_chain 3 ((1 + u) ^ 3) 3 B) P (dim2_index d) + 2).
Proof.
  intros A l p d. cbv zeta. intros HA F Fp Fc. assert (U : 0 <= unit_roundoff A) by apply (u_pos (A:=A)). pose proof (fold_aff2 l HA F) as AF. pose proof (C56_matrix_point_accurate_2d_pf A _ p d AF Fp Fc) as P. cbv zeta in P.
  set (t0 := fold_left t2_and_then l t2_identity) in *. rewrite <- g_pow by exact U. set (MM := map (fun y => ent3 (RM3 (t2_forward y))) l) in *. set (r := dim2_index d) in *. assert (Hr : (r < 3)%nat) by apply dim_lt2. unfold mat_apply in P |- *.
  rewrite (sum_ext 3 (fun k => ent3 (RM3 (t2_forward t0)) r k * hom2 (RP2 p) k) (fun k => hom2 (RP2 p) k * ent3 (RM3 (t2_forward t0)) r k)) in P by (intros; apply Rmult_comm).
  rewrite (sum_ext 3 (fun k => mat_abs (ent3 (RM3 (t2_forward t0))) r k * hom2 (absP2 (RP2 p)) k) (fun k => Rabs (hom2 (RP2 p) k) * Rabs (ent3 (RM3 (t2_forward t0)) r k))) in P by (intros; rewrite hom_abs2; apply Rmult_comm).
  rewrite (sum_ext 3 (fun k => chain 3 MM r k * hom2 (RP2 p) k) (fun k => hom2 (RP2 p) k * chain 3 MM r k)) by (intros; apply Rmult_comm).
  rewrite (sum_ext 3 (fun k => chain 3 (map mat_abs MM) r k * hom2 (absP2 (RP2 p)) k) (fun k => Rabs (hom2 (RP2 p) k) * chain 3 (map mat_abs MM) r k)) by (intros; rewrite hom_abs2; apply Rmult_comm).
  rewrite (sum_ext 3 (fun k => floor_chain 3 ((1 + unit_roundoff A) ^ 3) 3 (map mat_abs MM) r k * hom2 (absP2 (RP2 p)) k) (fun k => Rabs (hom2 (RP2 p) k) * floor_chain 3 ((1 + unit_roundoff A) ^ 3) 3 (map mat_abs MM) r k)) by (intros; rewrite hom_abs2; apply Rmult_comm).
  exact (bstep 3 (fun k => hom2 (RP2 p) k) (fun k => ent3 (RM3 (t2_forward t0)) r k) _ _ _ ((1 + unit_roundoff A) ^ 3) _ (min_subnormal A) 2 _ (g_ge1 _ _ U) (fun k Hk => C81_chain_matrix_2d_pf A l r k Hr Hk F)
      (fun k Hk => eq_ind_r (fun z => _ <= chain 3 z r k) (chain_abs 3 _ (fun y => ent3 (RM3 (t2_forward y))) l r k Hr Hk) (map_map _ _ l)) P).
Qed.
Lemma C81_chain_point_3d_pf : forall (A : arith) (l : list (Transform3 (num A))) (p : Point3 (num A)) (d : Dimension3),
  let t := fold_left t3_and_then l t3_identity in let u := unit_roundoff A in
  let M := map (fun x => ent4 (RM4 (t3_forward x))) l in let B := map mat_abs M in let P := hom3 (absP3 (RP3 p)) in
  Forall (fun x => Affine4x4 (t3_forward x)) l -> MFinite4 (t3_forward t) -> Finite3 p -> Finite (coord3 (t3_transform_point t p) d) ->
  Rabs (real_of (coord3 (t3_transform_point t p) d) - mat_apply 4 (chain 4 M) (hom3 (RP3 p)) (dim3_index d)) <=
  ((1 + u) ^ (4 * (length l + 1)) - 1) * mat_apply 4 (chain 4 B) P (dim3_index d) +
  min_subnormal A * ((1 + u) ^ 4 * mat_apply 4 (floor_chain 4 ((1 + u) ^ 4) 4 B) P (dim3_index d) + 3).
Proof.
  intros A l p d. cbv zeta. intros HA F Fp Fc. assert (U : 0 <= unit_roundoff A) by apply (u_pos (A:=A)). pose proof (fold_aff3 l HA F) as AF. pose proof (C56_matrix_point_accurate_3d_pf A _ p d AF Fp Fc) as P. cbv zeta in P.
  set (t0 := fold_left t3_and_then l t3_identity) in *. rewrite <- g_pow by exact U. set (MM := map (fun y => ent4 (RM4 (t3_forward y))) l) in *. set (r := dim3_index d) in *. assert (Hr : (r < 4)%nat) by apply dim_lt3. unfold mat_apply in P |- *.
  rewrite (sum_ext 4 (fun k => ent4 (RM4 (t3_forward t0)) r k * hom3 (RP3 p) k) (fun k => hom3 (RP3 p) k * ent4 (RM4 (t3_forward t0)) r k)) in P by (intros; apply Rmult_comm).
  rewrite (sum_ext 4 (fun k => mat_abs (ent4 (RM4 (t3_forward t0))) r k * hom3 (absP3 (RP3 p)) k) (fun k => Rabs (hom3 (RP3 p) k) * Rabs (ent4 (RM4 (t3_forward t0)) r k))) in P by (intros; rewrite hom_abs3; apply Rmult_comm).
  rewrite (sum_ext 4 (fun k => chain 4 MM r k * hom3 (RP3 p) k) (fun k => hom3 (RP3 p) k * chain 4 MM r k)) by (intros; apply Rmult_comm).
  rewrite (sum_ext 4 (fun k => chain 4 (map mat_abs MM) r k * hom3 (absP3 (RP3 p)) k) (fun k => Rabs (hom3 (RP3 p) k) * chain 4 (map mat_abs MM) r k)) by (intros; rewrite hom_abs3; apply Rmult_comm).
  rewrite (sum_ext 4 (fun k => floor_chain 4 ((1 + unit_roundoff A) ^ 4) 4 (map mat_abs MM) r k * hom3 (absP3 (RP3 p)) k) (fun k => Rabs (hom3 (RP3 p) k) * floor_chain 4 ((1 + unit_roundoff A) ^ 4) 4 (map mat_abs MM) r k)) by (intros; rewrite hom_abs3; apply Rmult_comm).
  exact (bstep 4 (fun k => hom3 (RP3 p) k) (fun k => ent4 (RM4 (t3_forward t0)) r k) _ _ _ ((1 + unit_roundoff A) ^ 4) _ (min_subnormal A) 3 _ (g_ge1 _ _ U) (fun k Hk => C81_chain_matrix_3d_pf A l r k Hr Hk F)
      (fun k Hk => eq_ind_r (fun z => _ <= chain 4 z r k) (chain_abs 4 _ (fun y => ent4 (RM4 (t3_forward y))) l r k Hr Hk) (map_map _ _ l)) P).
Qed.
Lemma C81_chain_vector_2d_pf : forall (A : arith) (l : list (Transform2 (num A))) (v : Vector2 (num A)) (d : Dimension2),
  let t := fold_left t2_and_then l t2_identity in let u := unit_roundoff A in
  let M := map (fun x => ent3 (RM3 (t2_forward x))) l in let B := map mat_abs M in let V := dir2 (absV2 (RV2 v)) in
  MFinite3 (t2_forward t) -> Finite (vcoord2 (t2_transform_vector t v) d) ->
  Rabs (real_of (vcoord2 (t2_transform_vector t v) d) - mat_apply 3 (chain 3 M) (dir2 (RV2 v)) (dim2_index d)) <=
  ((1 + u) ^ (3 * (length l + 1)) - 1) * mat_apply 3 (chain 3 B) V (dim2_index d) +
  min_subnormal A * ((1 + u) ^ 3 * mat_apply 3 (floor_chain 3 ((1 + u) ^ 3) 3 B) V (dim2_index d) + 2).
Proof.
  intros A l v d. cbv zeta. intros F Fc. assert (U : 0 <= unit_roundoff A) by apply (u_pos (A:=A)). pose proof (C56_matrix_vector_accurate_2d_pf A _ v d Fc) as P. cbv zeta in P.
  set (t0 := fold_left t2_and_then l t2_identity) in *. rewrite <- g_pow by exact U. set (MM := map (fun y => ent3 (RM3 (t2_forward y))) l) in *. set (r := dim2_index d) in *. assert (Hr : (r < 3)%nat) by apply dim_lt2. unfold mat_apply in P |- *.
  rewrite (sum_ext 3 (fun k => ent3 (RM3 (t2_forward t0)) r k * dir2 (RV2 v) k) (fun k => dir2 (RV2 v) k * ent3 (RM3 (t2_forward t0)) r k)) in P by (intros; apply Rmult_comm).
  rewrite (sum_ext 3 (fun k => mat_abs (ent3 (RM3 (t2_forward t0))) r k * dir2 (absV2 (RV2 v)) k) (fun k => Rabs (dir2 (RV2 v) k) * Rabs (ent3 (RM3 (t2_forward t0)) r k))) in P by (intros; rewrite dir_abs2; apply Rmult_comm).
  rewrite (sum_ext 3 (fun k => chain 3 MM r k * dir2 (RV2 v) k) (fun k => dir2 (RV2 v) k * chain 3 MM r k)) by (intros; apply Rmult_comm).
  rewrite (sum_ext 3 (fun k => chain 3 (map mat_abs MM) r k * dir2 (absV2 (RV2 v)) k) (fun k => Rabs (dir2 (RV2 v) k) * chain 3 (map mat_abs MM) r k)) by (intros; rewrite dir_abs2; apply Rmult_comm).
  rewrite (sum_ext 3 (fun k => floor_chain 3 ((1 + unit_roundoff A) ^ 3) 3 (map mat_abs MM) r k * dir2 (absV2 (RV2 v)) k) (fun k => Rabs (dir2 (RV2 v) k) * floor_chain 3 ((1 + unit_roundoff A) ^ 3) 3 (map mat_abs MM) r k)) by (intros; rewrite dir_abs2; apply Rmult_comm).
  eapply Rle_trans in P; [|apply Rle_refl]. 
  assert (P' := Rle_trans _ _ _ P (apply_le_pow2 (A:=A) _ _ _ U (sum_nn 3 _ (fun k _ => Rmult_le_pos _ _ (Rabs_pos _) (Rabs_pos _))))).
  exact (bstep 3 (fun k => dir2 (RV2 v) k) (fun k => ent3 (RM3 (t2_forward t0)) r k) _ _ _ ((1 + unit_roundoff A) ^ 3) _ (min_subnormal A) 2 _ (g_ge1 _ _ U) (fun k Hk => C81_chain_matrix_2d_pf A l r k Hr Hk F)
      (fun k Hk => eq_ind_r (fun z => _ <= chain 3 z r k) (chain_abs 3 _ (fun y => ent3 (RM3 (t2_forward y))) l r k Hr Hk) (map_map _ _ l)) P').
Qed.
Lemma C81_chain_vector_3d_pf : forall (A : arith) (l : list (Transform3 (num A))) (v : Vector3 (num A)) (d : Dimension3),
  let t := fold_left t3_and_then l t3_identity in let u := unit_roundoff A in
  let M := map (fun x => ent4 (RM4 (t3_forward x))) l in let B := map mat_abs M in let V := dir3 (absV3 (RV3 v)) in
  MFinite4 (t3_forward t) -> Finite (vcoord3 (t3_transform_vector t v) d) ->
  Rabs (real_of (vcoord3 (t3_transform_vector t v) d) - mat_apply 4 (chain 4 M) (dir3 (RV3 v)) (dim3_index d)) <=
  ((1 + u) ^ (4 * (length l + 1)) - 1) * mat_apply 4 (chain 4 B) V (dim3_index d) +
  min_subnormal A * ((1 + u) ^ 4 * mat_apply 4 (floor_chain 4 ((1 + u) ^ 4) 4 B) V (dim3_index d) + 3).
Proof.
  intros A l v d. cbv zeta. intros F Fc. assert (U : 0 <= unit_roundoff A) by apply (u_pos (A:=A)). pose proof (C56_matrix_vector_accurate_3d_pf A _ v d Fc) as P. cbv zeta in P.
  set (t0 := fold_left t3_and_then l t3_identity) in *. rewrite <- g_pow by exact U. set (MM := map (fun y => ent4 (RM4 (t3_forward y))) l) in *. set (r := dim3_index d) in *. assert (Hr : (r < 4)%nat) by apply dim_lt3. unfold mat_apply in P |- *.
  rewrite (sum_ext 4 (fun k => ent4 (RM4 (t3_forward t0)) r k * dir3 (RV3 v) k) (fun k => dir3 (RV3 v) k * ent4 (RM4 (t3_forward t0)) r k)) in P by (intros; apply Rmult_comm).
  rewrite (sum_ext 4 (fun k => mat_abs (ent4 (RM4 (t3_forward t0))) r k * dir3 (absV3 (RV3 v)) k) (fun k => Rabs (dir3 (RV3 v) k) * Rabs (ent4 (RM4 (t3_forward t0)) r k))) in P by (intros; rewrite dir_abs3; apply Rmult_comm).
  rewrite (sum_ext 4 (fun k => chain 4 MM r k * dir3 (RV3 v) k) (fun k => dir3 (RV3 v) k * chain 4 MM r k)) by (intros; apply Rmult_comm).
  rewrite (sum_ext 4 (fun k => chain 4 (map mat_abs MM) r k * dir3 (absV3 (RV3 v)) k) (fun k => Rabs (dir3 (RV3 v) k) * chain 4 (map mat_abs MM) r k)) by (intros; rewrite dir_abs3; apply Rmult_comm).
  rewrite (sum_ext 4 (fun k => floor_chain 4 ((1 + unit_roundoff A) ^ 4) 4 (map mat_abs MM) r k * dir3 (absV3 (RV3 v)) k) (fun k => Rabs (dir3 (RV3 v) k) * floor_chain 4 ((1 + unit_roundoff A) ^ 4) 4 (map mat_abs MM) r k)) by (intros; rewrite dir_abs3; apply Rmult_comm).
  eapply Rle_trans in P; [|apply Rle_refl]. 
  assert (P' := Rle_trans _ _ _ P (apply_le_pow3 (A:=A) _ _ _ U (sum_nn 4 _ (fun k _ => Rmult_le_pos _ _ (Rabs_pos _) (Rabs_pos _))))).
  exact (bstep 4 (fun k => dir3 (RV3 v) k) (fun k => ent4 (RM4 (t3_forward t0)) r k) _ _ _ ((1 + unit_roundoff A) ^ 4) _ (min_subnormal A) 3 _ (g_ge1 _ _ U) (fun k Hk => C81_chain_matrix_3d_pf A l r k Hr Hk F)
      (fun k Hk => eq_ind_r (fun z => _ <= chain 4 z r k) (chain_abs 4 _ (fun y => ent4 (RM4 (t3_forward y))) l r k Hr Hk) (map_map _ _ l)) P').
Qed.
Lemma xrnan (A : arith) : xr A XNaN = XNaN.
Proof. destruct A; reflexivity. Qed.
Lemma zmul_fin {A : arith} (z x : num A) : tx z = Fin 0 -> tx (smul z x) <> XNaN -> Finite x.
Proof. intros Z N. rewrite tx_mul, Z in N. destruct (tx x) as [r| | |] eqn:E; [now apply (Finite_intro x r) | exfalso; apply N ..]; (etransitivity; [|apply xrnan]); apply (f_equal (xr A)); cbn; unfold xsigned_inf; rewrite ?Rlt_bool_false by lra; reflexivity. Qed.
Lemma add_nn {A : arith} (x y : num A) : tx (sadd x y) <> XNaN -> tx x <> XNaN /\ tx y <> XNaN.
Proof. intros N. rewrite tx_add in N. split; intros E; apply N; rewrite E; (etransitivity; [|apply xrnan]); apply (f_equal (xr A)); [reflexivity | destruct (tx x); reflexivity]. Qed.
Lemma div_nn {A : arith} (x y : num A) : Finite (sdiv x y) -> tx y <> XNaN.
Proof. intros F E. apply Finite_real in F. assert (N : tx (sdiv x y) = XNaN). { rewrite tx_div by (rewrite E; discriminate). rewrite E. (etransitivity; [|apply xrnan]); apply (f_equal (xr A)). destruct (tx x); reflexivity. } congruence. Qed.
Lemma point_fin3 {A : arith} (m : Matrix4x4 (num A)) (p : Point3 (num A)) : Affine4x4 m -> Finite3 (m4_mul_point m p) -> Finite3 p.
Proof.
  intros (A0 & A1 & A2 & _) F. apply Eqs_tx0 in A0, A1, A2. specialize (F D3X). cbn in F. apply div_nn in F. apply add_nn in F. destruct F as [F _]. apply add_nn in F. destruct F as [F F3]. apply add_nn in F. destruct F as [F1 F2].
  intros []; [apply (zmul_fin _ _ A0 F1) | apply (zmul_fin _ _ A1 F2) | apply (zmul_fin _ _ A2 F3)].
Qed.
Lemma point_fin2 {A : arith} (m : Matrix3x3 (num A)) (p : Point2 (num A)) : Affine3x3 m -> Finite2 (m3_mul_point m p) -> Finite2 p.
Proof.
  intros (A0 & A1 & _) F. apply Eqs_tx0 in A0, A1. specialize (F D2X). cbn in F. apply div_nn in F. apply add_nn in F. destruct F as [F _]. apply add_nn in F. destruct F as [F1 F2].
  intros []; [apply (zmul_fin _ _ A0 F1) | apply (zmul_fin _ _ A1 F2)].
Qed.
Lemma vec_fin3 {A : arith} (m : Matrix4x4 (num A)) (v : Vector3 (num A)) : VFinite3 (m4_mul_vector m v) -> VFinite3 v.
Proof. intros F. specialize (F D3X). cbn in F. apply fin_dot3 in F. intros []; cbn; tauto. Qed.
Lemma vec_fin2 {A : arith} (m : Matrix3x3 (num A)) (v : Vector2 (num A)) : VFinite2 (m3_mul_vector m v) -> VFinite2 v.
Proof. intros F. specialize (F D2X). cbn in F. destruct (err_add _ _ F) as (F1 & F2 & _). destruct (err_mul _ _ F1) as (_ & ? & _). destruct (err_mul _ _ F2) as (_ & ? & _). intros []; cbn; tauto. Qed.
Lemma tx0_real {A : arith} (x : num A) r : tx x = Fin r -> real_of x = r.
Proof. intros E. apply (Finite_intro x r), E. Qed.
Lemma aff_row2 {A : arith} (m : Matrix3x3 (num A)) (x : nat -> R) : Affine3x3 m -> mat_apply 3 (ent3 (RM3 m)) x 2%nat = x 2%nat.
Proof. intros AF. unfold Affine3x3 in AF. rewrite !Eqs_tx0, Eqs_tx1 in AF. decompose [and] AF. repeat match goal with H : tx _ = Fin _ |- _ => apply tx0_real in H end. unfold mat_apply, ent3, RM3. cbn. repeat match goal with H : real_of _ = _ |- _ => rewrite H; clear H end. ring. Qed.
Lemma pt_step2 {A : arith} (m : Matrix3x3 (num A)) (p : Point2 (num A)) r : (r < 3)%nat -> Affine3x3 m -> Finite2 p -> Finite2 (m3_mul_point m p) ->
  Rabs (hom2 (RP2 (m3_mul_point m p)) r - sum_n 3 (fun k => ent3 (RM3 m) r k * hom2 (RP2 p) k)) <= ((1 + unit_roundoff A) ^ 3 - 1) * sum_n 3 (fun k => Rabs (ent3 (RM3 m) r k) * Rabs (hom2 (RP2 p) k)) + 2 * min_subnormal A.
Proof.
  intros Hr AF Fp F. assert (U : 0 <= unit_roundoff A) by apply (u_pos (A:=A)). assert (T : 0 <= min_subnormal A) by apply (t_pos (A:=A)).
  assert (Q : r = 2%nat \/ exists d, r = dim2_index d). { destruct r as [|[|[|r]]]; [right; exists D2X | right; exists D2Y | left | lia]; reflexivity. }
  destruct Q as [->|[d ->]].
  - change (sum_n 3 (fun k => ent3 (RM3 m) 2%nat k * hom2 (RP2 p) k)) with (mat_apply 3 (ent3 (RM3 m)) (hom2 (RP2 p)) 2%nat). rewrite aff_row2 by exact AF. cbn [hom2 nth]. rewrite Rminus_diag_eq, Rabs_R0 by reflexivity.
    apply Rplus_le_le_0_compat; [|apply Rmult_le_pos; lra]. apply Rmult_le_pos; [pose proof (g_ge1 (unit_roundoff A) 3 U); lra|]. apply sum_nn. intros k _. apply Rmult_le_pos; apply Rabs_pos.
  - pose proof (C56_matrix_point_accurate_2d_pf A m p d AF Fp (F d)) as P. cbv zeta in P. unfold mat_apply in P.
    rewrite (sum_ext 3 (fun k => mat_abs (ent3 (RM3 m)) (dim2_index d) k * hom2 (absP2 (RP2 p)) k) (fun k => Rabs (ent3 (RM3 m) (dim2_index d) k) * Rabs (hom2 (RP2 p) k))) in P by (intros; rewrite hom_abs2; reflexivity).
    destruct d; exact P.
Qed.
Lemma vec_step2 {A : arith} (m : Matrix3x3 (num A)) (v : Vector2 (num A)) r : (r < 3)%nat -> Affine3x3 m -> VFinite2 (m3_mul_vector m v) ->
  Rabs (dir2 (RV2 (m3_mul_vector m v)) r - sum_n 3 (fun k => ent3 (RM3 m) r k * dir2 (RV2 v) k)) <= ((1 + unit_roundoff A) ^ 3 - 1) * sum_n 3 (fun k => Rabs (ent3 (RM3 m) r k) * Rabs (dir2 (RV2 v) k)) + 2 * min_subnormal A.
Proof.
  intros Hr AF F. assert (U : 0 <= unit_roundoff A) by apply (u_pos (A:=A)). assert (T : 0 <= min_subnormal A) by apply (t_pos (A:=A)).
  assert (Q : r = 2%nat \/ exists d, r = dim2_index d). { destruct r as [|[|[|r]]]; [right; exists D2X | right; exists D2Y | left | lia]; reflexivity. }
  destruct Q as [->|[d ->]].
  - change (sum_n 3 (fun k => ent3 (RM3 m) 2%nat k * dir2 (RV2 v) k)) with (mat_apply 3 (ent3 (RM3 m)) (dir2 (RV2 v)) 2%nat). rewrite aff_row2 by exact AF. cbn [dir2 nth]. rewrite Rminus_diag_eq, Rabs_R0 by reflexivity.
    apply Rplus_le_le_0_compat; [|apply Rmult_le_pos; lra]. apply Rmult_le_pos; [pose proof (g_ge1 (unit_roundoff A) 3 U); lra|]. apply sum_nn. intros k _. apply Rmult_le_pos; apply Rabs_pos.
  - pose proof (C56_matrix_vector_accurate_2d_pf A m v d (F d)) as P. cbv zeta in P. unfold mat_apply in P.
    rewrite (sum_ext 3 (fun k => mat_abs (ent3 (RM3 m)) (dim2_index d) k * dir2 (absV2 (RV2 v)) k) (fun k => Rabs (ent3 (RM3 m) (dim2_index d) k) * Rabs (dir2 (RV2 v) k))) in P by (intros; rewrite dir_abs2; reflexivity).
    assert (P' := Rle_trans _ _ _ P (apply_le_pow2 (A:=A) _ _ _ U (sum_nn 3 _ (fun k _ => Rmult_le_pos _ _ (Rabs_pos _) (Rabs_pos _))))).
    destruct d; exact P'.
Qed.
Lemma path_pt2 (A : arith) (l : list (Transform2 (num A))) (p : Point2 (num A)) : let q := fold_left (fun q x => t2_transform_point x q) l p in let u := unit_roundoff A in
  let M := map (fun x => ent3 (RM3 (t2_forward x))) l in let B := map mat_abs M in
  Forall (fun x => Affine3x3 (t2_forward x)) l -> Finite2 q -> Finite2 p /\ forall r, (r < 3)%nat ->
  Rabs (hom2 (RP2 q) r - mat_apply 3 (chain 3 M) (hom2 (RP2 p)) r) <= ((1 + u) ^ (3 * length l) - 1) * mat_apply 3 (chain 3 B) (hom2 (absP2 (RP2 p))) r + min_subnormal A * floor_path 3 ((1 + u) ^ 3) 2 B r.
Proof.
  cbv zeta. assert (U : 0 <= unit_roundoff A) by apply (u_pos (A:=A)). induction l as [|x l IH] using rev_ind; intros HA F.
  - split; [exact F|]. intros r Hr. cbn [map fold_left length]. unfold chain, floor_path. cbn [fold_left]. rewrite !apply_id by exact Hr. rewrite Rminus_diag_eq, Rabs_R0 by reflexivity. rewrite Nat.mul_0_r. cbn [pow]. lra.
  - rewrite !map_app. cbn [map]. rewrite snoc_fold in F |- *. apply Forall_app in HA. destruct HA as [HA HX]. apply Forall_cons_iff' in HX. destruct HX as [HX _].
    set (q0 := fold_left (fun q x => t2_transform_point x q) l p) in *. unfold t2_transform_point in F |- *. pose proof (point_fin2 _ _ HX F) as F0. destruct (IH HA F0) as [Fp IB]. split; [exact Fp|]. intros r Hr.
    rewrite chain_snoc, chain_snoc, path_snoc, app_length. cbn [length]. rewrite <- g_pow by exact U. rewrite !apply_mul.
    refine (bstep 3 (fun k => ent3 (RM3 (t2_forward x)) r k) (fun k => hom2 (RP2 q0) k) _ _ _ ((1 + unit_roundoff A) ^ 3) _ (min_subnormal A) 2 _ (g_ge1 _ _ U) (fun k Hk => IB k Hk) _ (pt_step2 _ _ r Hr HX F0 F)).
    intros k Hk. rewrite map_map. apply apply_abs; [exact Hk | intros j Hj; apply chain_abs; assumption | intros j Hj; rewrite hom_abs2; apply Rle_refl].
Qed.
Lemma path_vec2 (A : arith) (l : list (Transform2 (num A))) (v : Vector2 (num A)) : let q := fold_left (fun q x => t2_transform_vector x q) l v in let u := unit_roundoff A in
  let M := map (fun x => ent3 (RM3 (t2_forward x))) l in let B := map mat_abs M in
  Forall (fun x => Affine3x3 (t2_forward x)) l -> VFinite2 q -> forall r, (r < 3)%nat ->
  Rabs (dir2 (RV2 q) r - mat_apply 3 (chain 3 M) (dir2 (RV2 v)) r) <= ((1 + u) ^ (3 * length l) - 1) * mat_apply 3 (chain 3 B) (dir2 (absV2 (RV2 v))) r + min_subnormal A * floor_path 3 ((1 + u) ^ 3) 2 B r.
Proof.
  cbv zeta. assert (U : 0 <= unit_roundoff A) by apply (u_pos (A:=A)). induction l as [|x l IH] using rev_ind; intros HA F.
  - intros r Hr. cbn [map fold_left length]. unfold chain, floor_path. cbn [fold_left]. rewrite !apply_id by exact Hr. rewrite Rminus_diag_eq, Rabs_R0 by reflexivity. rewrite Nat.mul_0_r. cbn [pow]. lra.
  - rewrite !map_app. cbn [map]. rewrite snoc_fold in F |- *. apply Forall_app in HA. destruct HA as [HA HX]. apply Forall_cons_iff' in HX. destruct HX as [HX _].
    set (q0 := fold_left (fun q x => t2_transform_vector x q) l v) in *. unfold t2_transform_vector in F |- *. pose proof (vec_fin2 _ _ F) as F0. pose proof (IH HA F0) as IB. intros r Hr.
    rewrite chain_snoc, chain_snoc, path_snoc, app_length. cbn [length]. rewrite <- g_pow by exact U. rewrite !apply_mul.
    refine (bstep 3 (fun k => ent3 (RM3 (t2_forward x)) r k) (fun k => dir2 (RV2 q0) k) _ _ _ ((1 + unit_roundoff A) ^ 3) _ (min_subnormal A) 2 _ (g_ge1 _ _ U) (fun k Hk => IB k Hk) _ (vec_step2 _ _ r Hr HX F)).
    intros k Hk. rewrite map_map. apply apply_abs; [exact Hk | intros j Hj; apply chain_abs; assumption | intros j Hj; rewrite dir_abs2; apply Rle_refl].
Qed.
Lemma aff_row3 {A : arith} (m : Matrix4x4 (num A)) (x : nat -> R) : Affine4x4 m -> mat_apply 4 (ent4 (RM4 m)) x 3%nat = x 3%nat.
Proof. intros AF. unfold Affine4x4 in AF. rewrite !Eqs_tx0, Eqs_tx1 in AF. decompose [and] AF. repeat match goal with H : tx _ = Fin _ |- _ => apply tx0_real in H end. unfold mat_apply, ent4, RM4. cbn. repeat match goal with H : real_of _ = _ |- _ => rewrite H; clear H end. ring. Qed.
Lemma pt_step3 {A : arith} (m : Matrix4x4 (num A)) (p : Point3 (num A)) r : (r < 4)%nat -> Affine4x4 m -> Finite3 p -> Finite3 (m4_mul_point m p) ->
  Rabs (hom3 (RP3 (m4_mul_point m p)) r - sum_n 4 (fun k => ent4 (RM4 m) r k * hom3 (RP3 p) k)) <= ((1 + unit_roundoff A) ^ 4 - 1) * sum_n 4 (fun k => Rabs (ent4 (RM4 m) r k) * Rabs (hom3 (RP3 p) k)) + 3 * min_subnormal A.
Proof.
  intros Hr AF Fp F. assert (U : 0 <= unit_roundoff A) by apply (u_pos (A:=A)). assert (T : 0 <= min_subnormal A) by apply (t_pos (A:=A)).
  assert (Q : r = 3%nat \/ exists d, r = dim3_index d). { destruct r as [|[|[|[|r]]]]; [right; exists D3X | right; exists D3Y | right; exists D3Z | left | lia]; reflexivity. }
  destruct Q as [->|[d ->]].
  - change (sum_n 4 (fun k => ent4 (RM4 m) 3%nat k * hom3 (RP3 p) k)) with (mat_apply 4 (ent4 (RM4 m)) (hom3 (RP3 p)) 3%nat). rewrite aff_row3 by exact AF. cbn [hom3 nth]. rewrite Rminus_diag_eq, Rabs_R0 by reflexivity.
    apply Rplus_le_le_0_compat; [|apply Rmult_le_pos; lra]. apply Rmult_le_pos; [pose proof (g_ge1 (unit_roundoff A) 4 U); lra|]. apply sum_nn. intros k _. apply Rmult_le_pos; apply Rabs_pos.
  - pose proof (C56_matrix_point_accurate_3d_pf A m p d AF Fp (F d)) as P. cbv zeta in P. unfold mat_apply in P.
    rewrite (sum_ext 4 (fun k => mat_abs (ent4 (RM4 m)) (dim3_index d) k * hom3 (absP3 (RP3 p)) k) (fun k => Rabs (ent4 (RM4 m) (dim3_index d) k) * Rabs (hom3 (RP3 p) k))) in P by (intros; rewrite hom_abs3; reflexivity).
    destruct d; exact P.
Qed.
Lemma vec_step3 {A : arith} (m : Matrix4x4 (num A)) (v : Vector3 (num A)) r : (r < 4)%nat -> Affine4x4 m -> VFinite3 (m4_mul_vector m v) ->
  Rabs (dir3 (RV3 (m4_mul_vector m v)) r - sum_n 4 (fun k => ent4 (RM4 m) r k * dir3 (RV3 v) k)) <= ((1 + unit_roundoff A) ^ 4 - 1) * sum_n 4 (fun k => Rabs (ent4 (RM4 m) r k) * Rabs (dir3 (RV3 v) k)) + 3 * min_subnormal A.
Proof.
  intros Hr AF F. assert (U : 0 <= unit_roundoff A) by apply (u_pos (A:=A)). assert (T : 0 <= min_subnormal A) by apply (t_pos (A:=A)).
  assert (Q : r = 3%nat \/ exists d, r = dim3_index d). { destruct r as [|[|[|[|r]]]]; [right; exists D3X | right; exists D3Y | right; exists D3Z | left | lia]; reflexivity. }
  destruct Q as [->|[d ->]].
  - change (sum_n 4 (fun k => ent4 (RM4 m) 3%nat k * dir3 (RV3 v) k)) with (mat_apply 4 (ent4 (RM4 m)) (dir3 (RV3 v)) 3%nat). rewrite aff_row3 by exact AF. cbn [dir3 nth]. rewrite Rminus_diag_eq, Rabs_R0 by reflexivity.
    apply Rplus_le_le_0_compat; [|apply Rmult_le_pos; lra]. apply Rmult_le_pos; [pose proof (g_ge1 (unit_roundoff A) 4 U); lra|]. apply sum_nn. intros k _. apply Rmult_le_pos; apply Rabs_pos.
  - pose proof (C56_matrix_vector_accurate_3d_pf A m v d (F d)) as P. cbv zeta in P. unfold mat_apply in P.
    rewrite (sum_ext 4 (fun k => mat_abs (ent4 (RM4 m)) (dim3_index d) k * dir3 (absV3 (RV3 v)) k) (fun k => Rabs (ent4 (RM4 m) (dim3_index d) k) * Rabs (dir3 (RV3 v) k))) in P by (intros; rewrite dir_abs3; reflexivity).
    assert (P' := Rle_trans _ _ _ P (apply_le_pow3 (A:=A) _ _ _ U (sum_nn 4 _ (fun k _ => Rmult_le_pos _ _ (Rabs_pos _) (Rabs_pos _))))).
    destruct d; exact P'.
Qed.
Lemma path_pt3 (A : arith) (l : list (Transform3 (num A))) (p : Point3 (num A)) : let q := fold_left (fun q x => t3_transform_point x q) l p in let u := unit_roundoff A in
  let M := map (fun x => ent4 (RM4 (t3_forward x))) l in let B := map mat_abs M in
  Forall (fun x => Affine4x4 (t3_forward x)) l -> Finite3 q -> Finite3 p /\ forall r, (r < 4)%nat ->
  Rabs (hom3 (RP3 q) r - mat_apply 4 (chain 4 M) (hom3 (RP3 p)) r) <= ((1 + u) ^ (4 * length l) - 1) * mat_apply 4 (chain 4 B) (hom3 (absP3 (RP3 p))) r + min_subnormal A * floor_path 4 ((1 + u) ^ 4) 3 B r.
Proof.
  cbv zeta. assert (U : 0 <= unit_roundoff A) by apply (u_pos (A:=A)). induction l as [|x l IH] using rev_ind; intros HA F.
  - split; [exact F|]. intros r Hr. cbn [map fold_left length]. unfold chain, floor_path. cbn [fold_left]. rewrite !apply_id by exact Hr. rewrite Rminus_diag_eq, Rabs_R0 by reflexivity. rewrite Nat.mul_0_r. cbn [pow]. lra.
  - rewrite !map_app. cbn [map]. rewrite snoc_fold in F |- *. apply Forall_app in HA. destruct HA as [HA HX]. apply Forall_cons_iff' in HX. destruct HX as [HX _].
    set (q0 := fold_left (fun q x => t3_transform_point x q) l p) in *. unfold t3_transform_point in F |- *. pose proof (point_fin3 _ _ HX F) as F0. destruct (IH HA F0) as [Fp IB]. split; [exact Fp|]. intros r Hr.
    rewrite chain_snoc, chain_snoc, path_snoc, app_length. cbn [length]. rewrite <- g_pow by exact U. rewrite !apply_mul.
    refine (bstep 4 (fun k => ent4 (RM4 (t3_forward x)) r k) (fun k => hom3 (RP3 q0) k) _ _ _ ((1 + unit_roundoff A) ^ 4) _ (min_subnormal A) 3 _ (g_ge1 _ _ U) (fun k Hk => IB k Hk) _ (pt_step3 _ _ r Hr HX F0 F)).
    intros k Hk. rewrite map_map. apply apply_abs; [exact Hk | intros j Hj; apply chain_abs; assumption | intros j Hj; rewrite hom_abs3; apply Rle_refl].
Qed.
Lemma path_vec3 (A : arith) (l : list (Transform3 (num A))) (v : Vector3 (num A)) : let q := fold_left (fun q x => t3_transform_vector x q) l v in let u := unit_roundoff A in
  let M := map (fun x => ent4 (RM4 (t3_forward x))) l in let B := map mat_abs M in
  Forall (fun x => Affine4x4 (t3_forward x)) l -> VFinite3 q -> forall r, (r < 4)%nat ->
  Rabs (dir3 (RV3 q) r - mat_apply 4 (chain 4 M) (dir3 (RV3 v)) r) <= ((1 + u) ^ (4 * length l) - 1) * mat_apply 4 (chain 4 B) (dir3 (absV3 (RV3 v))) r + min_subnormal A * floor_path 4 ((1 + u) ^ 4) 3 B r.
Proof.
  cbv zeta. assert (U : 0 <= unit_roundoff A) by apply (u_pos (A:=A)). induction l as [|x l IH] using rev_ind; intros HA F.
  - intros r Hr. cbn [map fold_left length]. unfold chain, floor_path. cbn [fold_left]. rewrite !apply_id by exact Hr. rewrite Rminus_diag_eq, Rabs_R0 by reflexivity. rewrite Nat.mul_0_r. cbn [pow]. lra.
  - rewrite !map_app. cbn [map]. rewrite snoc_fold in F |- *. apply Forall_app in HA. destruct HA as [HA HX]. apply Forall_cons_iff' in HX. destruct HX as [HX _].
    set (q0 := fold_left (fun q x => t3_transform_vector x q) l v) in *. unfold t3_transform_vector in F |- *. pose proof (vec_fin3 _ _ F) as F0. pose proof (IH HA F0) as IB. intros r Hr.
    rewrite chain_snoc, chain_snoc, path_snoc, app_length. cbn [length]. rewrite <- g_pow by exact U. rewrite !apply_mul.
    refine (bstep 4 (fun k => ent4 (RM4 (t3_forward x)) r k) (fun k => dir3 (RV3 q0) k) _ _ _ ((1 + unit_roundoff A) ^ 4) _ (min_subnormal A) 3 _ (g_ge1 _ _ U) (fun k Hk => IB k Hk) _ (vec_step3 _ _ r Hr HX F)).
    intros k Hk. rewrite map_map. apply apply_abs; [exact Hk | intros j Hj; apply chain_abs; assumption | intros j Hj; rewrite dir_abs3; apply Rle_refl].
Qed.
Lemma C81_steps_point_2d_pf : forall (A : arith) (l : list (Transform2 (num A))) (p : Point2 (num A)) (d : Dimension2),
  let q := fold_left (fun q x => t2_transform_point x q) l p in let u := unit_roundoff A in
  let M := map (fun x => ent3 (RM3 (t2_forward x))) l in let B := map mat_abs M in
  Forall (fun x => Affine3x3 (t2_forward x)) l -> Finite2 q ->
  Rabs (real_of (coord2 q d) - mat_apply 3 (chain 3 M) (hom2 (RP2 p)) (dim2_index d)) <=
  ((1 + u) ^ (3 * length l) - 1) * mat_apply 3 (chain 3 B) (hom2 (absP2 (RP2 p))) (dim2_index d) + min_subnormal A * floor_path 3 ((1 + u) ^ 3) 2 B (dim2_index d).
Proof.
  intros A l p d. cbv zeta. intros HA F. destruct (path_pt2 A l p HA F) as [_ P]. specialize (P (dim2_index d) (dim_lt2 d)). destruct d; exact P.
Qed.
Lemma C81_steps_point_3d_pf : forall (A : arith) (l : list (Transform3 (num A))) (p : Point3 (num A)) (d : Dimension3),
  let q := fold_left (fun q x => t3_transform_point x q) l p in let u := unit_roundoff A in
  let M := map (fun x => ent4 (RM4 (t3_forward x))) l in let B := map mat_abs M in
  Forall (fun x => Affine4x4 (t3_forward x)) l -> Finite3 q ->
  Rabs (real_of (coord3 q d) - mat_apply 4 (chain 4 M) (hom3 (RP3 p)) (dim3_index d)) <=
  ((1 + u) ^ (4 * length l) - 1) * mat_apply 4 (chain 4 B) (hom3 (absP3 (RP3 p))) (dim3_index d) + min_subnormal A * floor_path 4 ((1 + u) ^ 4) 3 B (dim3_index d).
Proof.
  intros A l p d. cbv zeta. intros HA F. destruct (path_pt3 A l p HA F) as [_ P]. specialize (P (dim3_index d) (dim_lt3 d)). destruct d; exact P.
Qed.
Lemma C81_steps_vector_2d_pf : forall (A : arith) (l : list (Transform2 (num A))) (v : Vector2 (num A)) (d : Dimension2),
  let q := fold_left (fun q x => t2_transform_vector x q) l v in let u := unit_roundoff A in
  let M := map (fun x => ent3 (RM3 (t2_forward x))) l in let B := map mat_abs M in
  Forall (fun x => Affine3x3 (t2_forward x)) l -> VFinite2 q ->
  Rabs (real_of (vcoord2 q d) - mat_apply 3 (chain 3 M) (dir2 (RV2 v)) (dim2_index d)) <=
  ((1 + u) ^ (3 * length l) - 1) * mat_apply 3 (chain 3 B) (dir2 (absV2 (RV2 v))) (dim2_index d) + min_subnormal A * floor_path 3 ((1 + u) ^ 3) 2 B (dim2_index d).
Proof.
  intros A l v d. cbv zeta. intros HA F. pose proof (path_vec2 A l v HA F (dim2_index d) (dim_lt2 d)) as P. destruct d; exact P.
Qed.
Lemma C81_steps_vector_3d_pf : forall (A : arith) (l : list (Transform3 (num A))) (v : Vector3 (num A)) (d : Dimension3),
  let q := fold_left (fun q x => t3_transform_vector x q) l v in let u := unit_roundoff A in
  let M := map (fun x => ent4 (RM4 (t3_forward x))) l in let B := map mat_abs M in
  Forall (fun x => Affine4x4 (t3_forward x)) l -> VFinite3 q ->
  Rabs (real_of (vcoord3 q d) - mat_apply 4 (chain 4 M) (dir3 (RV3 v)) (dim3_index d)) <=
  ((1 + u) ^ (4 * length l) - 1) * mat_apply 4 (chain 4 B) (dir3 (absV3 (RV3 v))) (dim3_index d) + min_subnormal A * floor_path 4 ((1 + u) ^ 4) 3 B (dim3_index d).
Proof.
  intros A l v d. cbv zeta. intros HA F. pose proof (path_vec3 A l v HA F (dim3_index d) (dim_lt3 d)) as P. destruct d; exact P.
Qed.
Lemma C81_and_then_agrees_2d_pf : forall (A : arith) (l : list (Transform2 (num A))) (p : Point2 (num A)) (d : Dimension2),
  let t := fold_left t2_and_then l t2_identity in let q := fold_left (fun q x => t2_transform_point x q) l p in let u := unit_roundoff A in
  let B := map mat_abs (map (fun x => ent3 (RM3 (t2_forward x))) l) in let P := hom2 (absP2 (RP2 p)) in
  Forall (fun x => Affine3x3 (t2_forward x)) l -> MFinite3 (t2_forward t) -> Finite2 q -> Finite (coord2 (t2_transform_point t p) d) ->
  Rabs (real_of (coord2 (t2_transform_point t p) d) - real_of (coord2 q d)) <=
  ((1 + u) ^ (3 * (length l + 1)) + (1 + u) ^ (3 * length l) - 2) * mat_apply 3 (chain 3 B) P (dim2_index d) +
  min_subnormal A * ((1 + u) ^ 3 * mat_apply 3 (floor_chain 3 ((1 + u) ^ 3) 3 B) P (dim2_index d) + 2 + floor_path 3 ((1 + u) ^ 3) 2 B (dim2_index d)).
Proof.
  intros A l p d. cbv zeta. intros HA FT FQ FC. destruct (path_pt2 A l p HA FQ) as [Fp _]. pose proof (C81_chain_point_2d_pf A l p d HA FT Fp FC) as P1. pose proof (C81_steps_point_2d_pf A l p d HA FQ) as P2. cbv zeta in P1, P2.
  set (X := mat_apply 3 (chain 3 (map (fun x => ent3 (RM3 (t2_forward x))) l)) (hom2 (RP2 p)) (dim2_index d)) in *.
  match goal with |- Rabs (?a - ?b) <= _ => replace (a - b) with ((a - X) - (b - X)) by ring end. unfold Rminus at 1. eapply Rle_trans; [apply Rabs_triang|]. rewrite Rabs_Ropp. lra.
Qed.
Lemma C81_and_then_agrees_3d_pf : forall (A : arith) (l : list (Transform3 (num A))) (p : Point3 (num A)) (d : Dimension3),
  let t := fold_left t3_and_then l t3_identity in let q := fold_left (fun q x => t3_transform_point x q) l p in let u := unit_roundoff A in
  let B := map mat_abs (map (fun x => ent4 (RM4 (t3_forward x))) l) in let P := hom3 (absP3 (RP3 p)) in
  Forall (fun x => Affine4x4 (t3_forward x)) l -> MFinite4 (t3_forward t) -> Finite3 q -> Finite (coord3 (t3_transform_point t p) d) ->
  Rabs (real_of (coord3 (t3_transform_point t p) d) - real_of (coord3 q d)) <=
  ((1 + u) ^ (4 * (length l + 1)) + (1 + u) ^ (4 * length l) - 2) * mat_apply 4 (chain 4 B) P (dim3_index d) +
  min_subnormal A * ((1 + u) ^ 4 * mat_apply 4 (floor_chain 4 ((1 + u) ^ 4) 4 B) P (dim3_index d) + 3 + floor_path 4 ((1 + u) ^ 4) 3 B (dim3_index d)).
Proof.
  intros A l p d. cbv zeta. intros HA FT FQ FC. destruct (path_pt3 A l p HA FQ) as [Fp _]. pose proof (C81_chain_point_3d_pf A l p d HA FT Fp FC) as P1. pose proof (C81_steps_point_3d_pf A l p d HA FQ) as P2. cbv zeta in P1, P2.
  set (X := mat_apply 4 (chain 4 (map (fun x => ent4 (RM4 (t3_forward x))) l)) (hom3 (RP3 p)) (dim3_index d)) in *.
  match goal with |- Rabs (?a - ?b) <= _ => replace (a - b) with ((a - X) - (b - X)) by ring end. unfold Rminus at 1. eapply Rle_trans; [apply Rabs_triang|]. rewrite Rabs_Ropp. lra.
Qed.
