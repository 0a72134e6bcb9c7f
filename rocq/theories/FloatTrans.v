(** Proofs: identity, translation and scaling act exactly in floating point. *)
From Coq Require Import Bool NArith ZArith Reals List Lra Lia.
From Flocq Require Import Core.Raux.
From Verif Require Import Scalar Types Vector2 Vector3 Point2 Point3 Ray BoundingBox2 BoundingBox3 Transform2 Transform3 Float
  XReal OrdLaws Arith SpecOrder SpecFloat OrderProofs OrderBox Comm FloatX XArith FloatLaws FloatGeom.
Import ListNotations.
Local Open Scope R_scope.
Lemma fin_fix {A : arith} (x : num A) : Finite x -> exists r, tx x = Fin r /\ xr A (Fin r) = Fin r /\ xr A (Fin (- r)) = Fin (- r).
Proof.
  rewrite Finite_tx. intros [r E]. exists r. split; [assumption|]. assert (X : xr A (Fin r) = Fin r) by (rewrite <- E; apply xr_tx).
  split; [exact X|]. change (Fin (- r)) with (xneg (Fin r)). now rewrite xr_neg, X.
Qed.
Lemma xr_1 {A : arith} : xr A (Fin 1) = Fin 1.
Proof. rewrite <- (@tx_1 A). apply xr_tx. Qed.
Lemma xr_xr {A : arith} (x : xreal) : xr A (xr A x) = xr A x.
Proof.
  destruct A as [f P|]; [|reflexivity]. cbn [xr]. destruct x as [r| | |]; try reflexivity.
  destruct (xround_cases f r) as [H| |]; try reflexivity. apply xround_repr; [apply repr_rnd|]. apply Rabs_lt. lra.
Qed.
Lemma xadd_0_r x : xadd x (Fin 0) = x.
Proof. destruct x; cbn; try reflexivity. f_equal. ring. Qed.
Lemma xadd_0_l x : xadd (Fin 0) x = x.
Proof. destruct x; cbn; try reflexivity. f_equal. ring. Qed.
Lemma xadd_ff a b : xadd (Fin a) (Fin b) = Fin (a + b). Proof. reflexivity. Qed.
Lemma xsub_ff a b : xsub (Fin a) (Fin b) = Fin (a + - b). Proof. reflexivity. Qed.
Lemma xmul_ff a b : xmul (Fin a) (Fin b) = Fin (a * b). Proof. reflexivity. Qed.
Lemma xneg_f a : xneg (Fin a) = Fin (- a). Proof. reflexivity. Qed.
Ltac fin H := let r := fresh "r" in let E := fresh "E" in let X := fresh "X" in let Y := fresh "Y" in destruct (fin_fix _ H) as (r & E & X & Y).
(* evaluate both sides in extended reals *)
Ltac txs := repeat (progress (
  rewrite ?tx_add, ?tx_sub, ?tx_mul, ?tx_neg, ?tx_0, ?tx_1;
  repeat match goal with E : tx ?x = Fin _ |- context [tx ?x] => rewrite E end;
  rewrite ?xadd_ff, ?xsub_ff, ?xmul_ff, ?xneg_f;
  rewrite ?xadd_0_r, ?xadd_0_l, ?xr_xr, ?Rmult_0_l, ?Rmult_0_r, ?Rmult_1_l, ?Rmult_1_r, ?Rplus_0_l, ?Rplus_0_r, ?xr_0, ?xr_1, ?Ropp_0;
  repeat match goal with X : xr ?A (Fin ?r) = Fin ?r |- context [xr ?A (Fin ?r)] => rewrite X end)).
Lemma div_1 {A : arith} (x w : num A) : tx w = Fin 1 -> tx (sdiv x w) = tx x.
Proof.
  intros H. rewrite tx_div by (rewrite H; intros K; injection K; lra). rewrite H.
  assert (E : xdiv (tx x) (Fin 1) = tx x).
  { destruct (tx x) as [a| | |]; cbn [xdiv]; [rewrite Req_bool_false by lra; f_equal; field | rewrite Rlt_bool_false by lra.. |]; reflexivity. }
  rewrite E. apply xr_tx.
Qed.
Lemma Eqs_of_tx {A : arith} (x y : num A) : tx x = tx y -> NoNaN y -> Eqs x y.
Proof. rewrite NoNaN_tx, Eqs_tx. intros ->. auto. Qed.
Lemma add_finite_NoNaN {A : arith} (x y : num A) : Finite x -> Finite y -> NoNaN (sadd x y).
Proof. rewrite !Finite_tx, NoNaN_tx, tx_add. intros [r ->] [s ->]. apply xnan_false. rewrite xr_nan. reflexivity. Qed.
Lemma mul_finite_NoNaN {A : arith} (x y : num A) : Finite x -> Finite y -> NoNaN (smul x y).
Proof. rewrite !Finite_tx, NoNaN_tx, tx_mul. intros [r ->] [s ->]. apply xnan_false. rewrite xr_nan. reflexivity. Qed.
Lemma finite_NoNaN {A : arith} (x : num A) : Finite x -> NoNaN x.
Proof. rewrite Finite_tx, NoNaN_tx. intros [r ->]. discriminate. Qed.
Lemma neg_finite {A : arith} (x : num A) : Finite x -> Finite (sneg x).
Proof. rewrite !Finite_tx, tx_neg. intros [r ->]. cbn. eauto. Qed.
Lemma neg_NoNaN {A : arith} (x : num A) : NoNaN x -> NoNaN (sneg x).
Proof. rewrite !NoNaN_tx, tx_neg. destruct (tx x); cbn; congruence. Qed.
Lemma finP2 {A : arith} (p : Point2 (num A)) : Finite2 p -> Finite (p2x p) /\ Finite (p2y p).
Proof. intros H. exact (conj (H D2X) (H D2Y)). Qed.
Lemma finV2 {A : arith} (p : Vector2 (num A)) : VFinite2 p -> Finite (v2x p) /\ Finite (v2y p).
Proof. intros H. exact (conj (H D2X) (H D2Y)). Qed.
Ltac finP2 H := let a := fresh "Fx" in let b := fresh "Fy" in apply finP2 in H; destruct H as [a b]; fin a; fin b.
Ltac finV2 H := let a := fresh "Fx" in let b := fresh "Fy" in apply finV2 in H; destruct H as [a b]; fin a; fin b.
Lemma finP3 {A : arith} (p : Point3 (num A)) : Finite3 p -> Finite (p3x p) /\ Finite (p3y p) /\ Finite (p3z p).
Proof. intros H. exact (conj (H D3X) (conj (H D3Y) (H D3Z))). Qed.
Lemma finV3 {A : arith} (p : Vector3 (num A)) : VFinite3 p -> Finite (v3x p) /\ Finite (v3y p) /\ Finite (v3z p).
Proof. intros H. exact (conj (H D3X) (conj (H D3Y) (H D3Z))). Qed.
Ltac finP3 H := let a := fresh "Fx" in let b := fresh "Fy" in let c := fresh "Fz" in apply finP3 in H; destruct H as (a & b & c); fin a; fin b; fin c.
Ltac finV3 H := let a := fresh "Fx" in let b := fresh "Fy" in let c := fresh "Fz" in apply finV3 in H; destruct H as (a & b & c); fin a; fin b; fin c.
Ltac unf2 := cbv [coord2 coord3 vcoord2 vcoord3 t2_transform_point t2_transform_vector t2_translate t2_scale t2_scale_uniform t2_identity t2_inverse t2_new t2_forward t2_inv
  m3_mul_point m3_mul_vector m3_translate m3_scale m3_scale_uniform m3_identity m3_new p2_new v2_new p2_add p2_sub_v v2_neg
  m3_0 m3_1 m3_2 m3_3 m3_4 m3_5 m3_6 m3_7 m3_8 m4_0 m4_1 m4_2 m4_3 m4_4 m4_5 m4_6 m4_7 m4_8 m4_9 m4_10 m4_11 m4_12 m4_13 m4_14 m4_15];
  cbn [p2x p2y p3x p3y p3z v2x v2y v3x v3y v3z].
Ltac unf3 := cbv [coord2 coord3 vcoord2 vcoord3 t3_transform_point t3_transform_vector t3_translate t3_scale t3_scale_uniform t3_identity t3_inverse t3_new t3_forward t3_inv
  m4_mul_point m4_mul_vector m4_translate m4_scale m4_scale_uniform m4_identity m4_new p3_new v3_new p3_add p3_sub_v v3_neg
  m3_0 m3_1 m3_2 m3_3 m3_4 m3_5 m3_6 m3_7 m3_8 m4_0 m4_1 m4_2 m4_3 m4_4 m4_5 m4_6 m4_7 m4_8 m4_9 m4_10 m4_11 m4_12 m4_13 m4_14 m4_15];
  cbn [p2x p2y p3x p3y p3z v2x v2y v3x v3y v3z].
Ltac solve_pt := apply Eqs_of_tx; [rewrite div_1; txs; reflexivity | first [apply add_finite_NoNaN | apply sub_finite_NoNaN | apply mul_finite_NoNaN | apply finite_NoNaN]; assumption].
Ltac solve_vec := apply Eqs_of_tx; [txs; reflexivity | first [apply mul_finite_NoNaN | apply finite_NoNaN]; assumption].
Lemma C40_identity_2d_pf : forall (A : arith) (p : Point2 (num A)) (v : Vector2 (num A)),
  (Finite2 p -> PEq2 (t2_transform_point t2_identity p) p) /\ (VFinite2 v -> VEq2 (t2_transform_vector t2_identity v) v).
Proof.
  intros A p v. split; [intros Hp; finP2 Hp | intros Hv; finV2 Hv]; intros []; unf2; try solve_pt; solve_vec.
Qed.
Lemma C40_identity_3d_pf : forall (A : arith) (p : Point3 (num A)) (v : Vector3 (num A)),
  (Finite3 p -> PEq3 (t3_transform_point t3_identity p) p) /\ (VFinite3 v -> VEq3 (t3_transform_vector t3_identity v) v).
Proof.
  intros A p v. split; [intros Hp; finP3 Hp | intros Hv; finV3 Hv]; intros []; unf3; try solve_pt; solve_vec.
Qed.
Lemma C40_translate_2d_pf : forall (A : arith) (t : Vector2 (num A)) (p : Point2 (num A)) (v : Vector2 (num A)),
  (VFinite2 t -> Finite2 p ->
     PEq2 (t2_transform_point (t2_translate t) p) (p2_add p t) /\
     PEq2 (t2_transform_point (t2_inverse (t2_translate t)) p) (p2_sub_v p t)) /\
  (VFinite2 v ->
     VEq2 (t2_transform_vector (t2_translate t) v) v /\ VEq2 (t2_transform_vector (t2_inverse (t2_translate t)) v) v).
Proof.
  intros A t p v. split; [intros Ht Hp; finV2 Ht; finP2 Hp | intros Hv; finV2 Hv]; split; intros []; unf2; try solve_pt; solve_vec.
Qed.
Lemma C40_translate_3d_pf : forall (A : arith) (t : Vector3 (num A)) (p : Point3 (num A)) (v : Vector3 (num A)),
  (VFinite3 t -> Finite3 p ->
     PEq3 (t3_transform_point (t3_translate t) p) (p3_add p t) /\
     PEq3 (t3_transform_point (t3_inverse (t3_translate t)) p) (p3_sub_v p t)) /\
  (VFinite3 v ->
     VEq3 (t3_transform_vector (t3_translate t) v) v /\ VEq3 (t3_transform_vector (t3_inverse (t3_translate t)) v) v).
Proof.
  intros A t p v. split; [intros Ht Hp; finV3 Ht; finP3 Hp | intros Hv; finV3 Hv]; split; intros []; unf3; try solve_pt; solve_vec.
Qed.
Lemma C40_scale_2d_pf : forall (A : arith) (sx sy : num A) (p : Point2 (num A)) (v : Vector2 (num A)), Finite sx -> Finite sy ->
  (Finite2 p -> PEq2 (t2_transform_point (t2_scale sx sy) p) (mkPoint2 (smul sx (p2x p)) (smul sy (p2y p)))) /\
  (VFinite2 v -> VEq2 (t2_transform_vector (t2_scale sx sy) v) (mkVector2 (smul sx (v2x v)) (smul sy (v2y v)))) /\
  (Finite2 p -> PEq2 (t2_transform_point (t2_scale_uniform sx) p) (p2_mul p sx)) /\
  (VFinite2 v -> VEq2 (t2_transform_vector (t2_scale_uniform sx) v) (v2_mul v sx)).
Proof.
  intros A sx sy p v Hx Hy. fin Hx. fin Hy. unfold p2_mul, v2_mul.
  split; [|split; [|split]]; [intros Hp; finP2 Hp | intros Hv; finV2 Hv | intros Hp; finP2 Hp | intros Hv; finV2 Hv]; intros []; unf2; rewrite ?(smul_comm (p2x p)), ?(smul_comm (p2y p)), ?(smul_comm (v2x v)), ?(smul_comm (v2y v)); try solve_pt; solve_vec.
Qed.
Lemma C40_scale_3d_pf : forall (A : arith) (sx sy sz : num A) (p : Point3 (num A)) (v : Vector3 (num A)), Finite sx -> Finite sy -> Finite sz ->
  (Finite3 p -> PEq3 (t3_transform_point (t3_scale sx sy sz) p) (mkPoint3 (smul sx (p3x p)) (smul sy (p3y p)) (smul sz (p3z p)))) /\
  (VFinite3 v -> VEq3 (t3_transform_vector (t3_scale sx sy sz) v) (mkVector3 (smul sx (v3x v)) (smul sy (v3y v)) (smul sz (v3z v)))) /\
  (Finite3 p -> PEq3 (t3_transform_point (t3_scale_uniform sx) p) (p3_mul p sx)) /\
  (VFinite3 v -> VEq3 (t3_transform_vector (t3_scale_uniform sx) v) (v3_mul v sx)).
Proof.
  intros A sx sy sz p v Hx Hy Hz. fin Hx. fin Hy. fin Hz. unfold p3_mul, v3_mul.
  split; [|split; [|split]]; [intros Hp; finP3 Hp | intros Hv; finV3 Hv | intros Hp; finP3 Hp | intros Hv; finV3 Hv]; intros []; unf3; rewrite ?(smul_comm (p3x p)), ?(smul_comm (p3y p)), ?(smul_comm (p3z p)), ?(smul_comm (v3x v)), ?(smul_comm (v3y v)), ?(smul_comm (v3z v)); try solve_pt; solve_vec.
Qed.
Lemma Forall_cons_inv {T} (P : T -> Prop) x l : Forall P (x :: l) -> P x /\ Forall P l.
Proof. intros H. inversion H. auto. Qed.
Ltac finM H := repeat (let a := fresh "M" in apply Forall_cons_inv in H; destruct H as [a H]; fin a).
Lemma seq_of_tx {A : arith} (x y : num A) : tx x = tx y -> tx y <> XNaN -> seq x y = true.
Proof. intros H N. apply Eqs_of_tx; [assumption|]. now apply NoNaN_tx. Qed.
Ltac nonan := txs; first [discriminate | apply xnan_false; rewrite <- ?xr_neg; rewrite ?xr_nan; reflexivity].
Lemma C37_identity_neutral_float_2d_pf : forall (A : arith) (m : Matrix3x3 (num A)), MFinite3 m -> m3_eq (m3_mul m3_identity m) m = true /\ m3_eq (m3_mul m m3_identity) m = true.
Proof.
  intros A m H. unfold MFinite3 in H. finM H.
  split; unfold m3_eq, m3_mul, m3_identity, m3_new; cbn [m3_0 m3_1 m3_2 m3_3 m3_4 m3_5 m3_6 m3_7 m3_8 m4_0 m4_1 m4_2 m4_3 m4_4 m4_5 m4_6 m4_7 m4_8 m4_9 m4_10 m4_11 m4_12 m4_13 m4_14 m4_15];
    repeat (apply andb_true_intro; split); (apply seq_of_tx; [txs; reflexivity | nonan]).
Qed.
Lemma C37_identity_neutral_float_3d_pf : forall (A : arith) (m : Matrix4x4 (num A)), MFinite4 m -> m4_eq (m4_mul m4_identity m) m = true /\ m4_eq (m4_mul m m4_identity) m = true.
Proof.
  intros A m H. unfold MFinite4 in H. finM H.
  split; unfold m4_eq, m4_mul, m4_identity, m4_new; cbn [m3_0 m3_1 m3_2 m3_3 m3_4 m3_5 m3_6 m3_7 m3_8 m4_0 m4_1 m4_2 m4_3 m4_4 m4_5 m4_6 m4_7 m4_8 m4_9 m4_10 m4_11 m4_12 m4_13 m4_14 m4_15];
    repeat (apply andb_true_intro; split); (apply seq_of_tx; [txs; reflexivity | nonan]).
Qed.
Lemma C40_translate_compose_2d_pf : forall (A : arith) (u v : Vector2 (num A)), VFinite2 u -> VFinite2 v ->
  t2_eq (t2_and_then (t2_translate u) (t2_translate v)) (t2_translate (v2_add u v)) = true /\
  t2_eq (t2_and_then (t2_translate u) (t2_inverse (t2_translate u))) t2_identity = true.
Proof.
  intros A u v Hu Hv. finV2 Hu. finV2 Hv.
  split; unfold t2_eq, t2_and_then, t2_inverse, t2_translate, t2_identity, m3_eq, m3_mul, m3_translate, m3_identity, m3_new, v2_add, v2_neg, v2_new;
    cbn [t2_new t3_new t2_forward t3_forward t2_inv t3_inv v2x v2y v3x v3y v3z m3_0 m3_1 m3_2 m3_3 m3_4 m3_5 m3_6 m3_7 m3_8 m4_0 m4_1 m4_2 m4_3 m4_4 m4_5 m4_6 m4_7 m4_8 m4_9 m4_10 m4_11 m4_12 m4_13 m4_14 m4_15];
    repeat (apply andb_true_intro; split); (apply seq_of_tx;
      [txs; first [reflexivity | rewrite <- xr_neg; cbn [xneg]; do 2 f_equal; ring | rewrite Rplus_opp_r, xr_0; reflexivity | rewrite Rplus_opp_l, xr_0; reflexivity] | nonan]).
Qed.
Lemma C40_translate_compose_3d_pf : forall (A : arith) (u v : Vector3 (num A)), VFinite3 u -> VFinite3 v ->
  t3_eq (t3_and_then (t3_translate u) (t3_translate v)) (t3_translate (v3_add u v)) = true /\
  t3_eq (t3_and_then (t3_translate u) (t3_inverse (t3_translate u))) t3_identity = true.
Proof.
  intros A u v Hu Hv. finV3 Hu. finV3 Hv.
  split; unfold t3_eq, t3_and_then, t3_inverse, t3_translate, t3_identity, m4_eq, m4_mul, m4_translate, m4_identity, m4_new, v3_add, v3_neg, v3_new;
    cbn [t2_new t3_new t2_forward t3_forward t2_inv t3_inv v2x v2y v3x v3y v3z m3_0 m3_1 m3_2 m3_3 m3_4 m3_5 m3_6 m3_7 m3_8 m4_0 m4_1 m4_2 m4_3 m4_4 m4_5 m4_6 m4_7 m4_8 m4_9 m4_10 m4_11 m4_12 m4_13 m4_14 m4_15];
    repeat (apply andb_true_intro; split); (apply seq_of_tx;
      [txs; first [reflexivity | rewrite <- xr_neg; cbn [xneg]; do 2 f_equal; ring | rewrite Rplus_opp_r, xr_0; reflexivity | rewrite Rplus_opp_l, xr_0; reflexivity] | nonan]).
Qed.
Lemma nan_box2 {A : arith} (b : BoundingBox2 (num A)) p : snan (p2x (bb2_min b)) = true -> bb2_is_inside b p = false.
Proof.
  intros H. unfold bb2_is_inside.
  assert (E : sle (p2x (bb2_min b)) (p2x p) = false).
  { destruct (sle (p2x (bb2_min b)) (p2x p)) eqn:K; [|reflexivity]. apply (ol_nan _ (num_OrdLaws A)) in K. destruct K; congruence. }
  now rewrite E.
Qed.
Lemma nan_box3 {A : arith} (b : BoundingBox3 (num A)) p : snan (p3x (bb3_min b)) = true -> bb3_is_inside b p = false.
Proof.
  intros H. unfold bb3_is_inside.
  assert (E : sle (p3x (bb3_min b)) (p3x p) = false).
  { destruct (sle (p3x (bb3_min b)) (p3x p)) eqn:K; [|reflexivity]. apply (ol_nan _ (num_OrdLaws A)) in K. destruct K; congruence. }
  now rewrite E.
Qed.
Lemma C47_infinite_box_refuted_2d_pf : forall (A : arith) (p : Point2 (num A)),
  NoNaN2 p -> bb2_is_inside bb2_infinite p = true /\ bb2_is_inside (t2_transform_bb t2_identity bb2_infinite) p = false.
Proof.
  intros A p H. split.
  - unfold bb2_is_inside. pose proof (fun d => Le_inf (num_OrdLaws A) _ (H d)) as H1. pose proof (fun d => ninf_Le (num_OrdLaws A) _ (H d)) as H2.
    repeat (apply andb_true_intro; split); first [apply (H1 D2X) | apply (H2 D2X) | apply (H1 D2Y) | apply (H2 D2Y) | apply (H1 D3Z) | apply (H2 D3Z)].
  - apply nan_box2. destruct A as [[] P|]; [vm_compute; reflexivity | vm_compute; reflexivity |].
    unfold t2_transform_bb.
    cbn. unfold xsigned_inf. rewrite ?(Rlt_bool_true 0 1) by lra. rewrite ?(Rlt_bool_false 0 0) by lra. reflexivity.
Qed.
Lemma C47_infinite_box_refuted_3d_pf : forall (A : arith) (p : Point3 (num A)),
  NoNaN3 p -> bb3_is_inside bb3_infinite p = true /\ bb3_is_inside (t3_transform_bb t3_identity bb3_infinite) p = false.
Proof.
  intros A p H. split.
  - unfold bb3_is_inside. pose proof (fun d => Le_inf (num_OrdLaws A) _ (H d)) as H1. pose proof (fun d => ninf_Le (num_OrdLaws A) _ (H d)) as H2.
    repeat (apply andb_true_intro; split); first [apply (H1 D3X) | apply (H2 D3X) | apply (H1 D3Y) | apply (H2 D3Y) | apply (H1 D3Z) | apply (H2 D3Z)].
  - apply nan_box3. destruct A as [[] P|]; [vm_compute; reflexivity | vm_compute; reflexivity |].
    unfold t3_transform_bb.
    cbn. unfold xsigned_inf. rewrite ?(Rlt_bool_true 0 1) by lra. rewrite ?(Rlt_bool_false 0 0) by lra. reflexivity.
Qed.
