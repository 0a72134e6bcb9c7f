(** Proof device for C81: real inequalities about chains of matrices. *)
From Coq Require Import Reals Lra Lia List.
From Flocq Require Import Core.Raux.
From Verif Require Import Scalar Types XReal SpecReal SpecErr SpecChain.
Import ListNotations.
Local Open Scope R_scope.
Lemma sum_le n f g : (forall k, (k < n)%nat -> f k <= g k) -> sum_n n f <= sum_n n g.
Proof. induction n as [|n IH]; intros H; cbn; [lra|]. pose proof (IH (fun k Hk => H k (Nat.lt_lt_succ_r _ _ Hk))). pose proof (H n (Nat.lt_succ_diag_r n)). lra. Qed.
Lemma sum_ext n f g : (forall k, (k < n)%nat -> f k = g k) -> sum_n n f = sum_n n g.
Proof. intros H. apply Rle_antisym; apply sum_le; intros k Hk; right; [|symmetry]; auto. Qed.
Lemma sum_lin n a b f g : sum_n n (fun k => a * f k + b * g k) = a * sum_n n f + b * sum_n n g.
Proof. induction n as [|n IH]; cbn; [ring|]. rewrite IH. ring. Qed.
Lemma sum_abs n f : Rabs (sum_n n f) <= sum_n n (fun k => Rabs (f k)).
Proof. induction n as [|n IH]; cbn; [rewrite Rabs_R0; lra|]. eapply Rle_trans; [apply Rabs_triang|]. lra. Qed.
Lemma sum_nn n f : (forall k, (k < n)%nat -> 0 <= f k) -> 0 <= sum_n n f.
Proof. intros H. induction n as [|n IH]; cbn; [lra|]. pose proof (IH (fun k Hk => H k (Nat.lt_lt_succ_r _ _ Hk))). pose proof (H n (Nat.lt_succ_diag_r n)). lra. Qed.
Lemma bstep n (w C X Y S : nat -> R) (g th t e x : R) : 1 <= g -> 
  (forall k, (k < n)%nat -> Rabs (C k - X k) <= (th - 1) * Y k + t * S k) -> (forall k, (k < n)%nat -> Rabs (X k) <= Y k) ->
  Rabs (x - sum_n n (fun k => w k * C k)) <= (g - 1) * sum_n n (fun k => Rabs (w k) * Rabs (C k)) + e * t ->
  Rabs (x - sum_n n (fun k => w k * X k)) <= (g * th - 1) * sum_n n (fun k => Rabs (w k) * Y k) + t * (g * sum_n n (fun k => Rabs (w k) * S k) + e).
Proof.
  intros G HC HX Hx.
  assert (D : Rabs (sum_n n (fun k => w k * C k) - sum_n n (fun k => w k * X k)) <= (th - 1) * sum_n n (fun k => Rabs (w k) * Y k) + t * sum_n n (fun k => Rabs (w k) * S k)).
  { rewrite <- sum_lin. replace (sum_n n (fun k => w k * C k) - sum_n n (fun k => w k * X k)) with (1 * sum_n n (fun k => w k * C k) + (-1) * sum_n n (fun k => w k * X k)) by ring. rewrite <- sum_lin.
    eapply Rle_trans; [apply sum_abs|]. apply sum_le. intros k Hk. replace (1 * (w k * C k) + -1 * (w k * X k)) with (w k * (C k - X k)) by ring. rewrite Rabs_mult.
    replace ((th - 1) * (Rabs (w k) * Y k) + t * (Rabs (w k) * S k)) with (Rabs (w k) * ((th - 1) * Y k + t * S k)) by ring. apply Rmult_le_compat_l; [apply Rabs_pos | now apply HC]. }
  assert (M : sum_n n (fun k => Rabs (w k) * Rabs (C k)) <= th * sum_n n (fun k => Rabs (w k) * Y k) + t * sum_n n (fun k => Rabs (w k) * S k)).
  { rewrite <- sum_lin. apply sum_le. intros k Hk. replace (th * (Rabs (w k) * Y k) + t * (Rabs (w k) * S k)) with (Rabs (w k) * (th * Y k + t * S k)) by ring. apply Rmult_le_compat_l; [apply Rabs_pos|].
    replace (C k) with ((C k - X k) + X k) by ring. eapply Rle_trans; [apply Rabs_triang|]. pose proof (HC k Hk). pose proof (HX k Hk). lra. }
  replace (x - sum_n n (fun k => w k * X k)) with ((x - sum_n n (fun k => w k * C k)) + (sum_n n (fun k => w k * C k) - sum_n n (fun k => w k * X k))) by ring.
  eapply Rle_trans; [apply Rabs_triang|].
  assert ((g - 1) * sum_n n (fun k => Rabs (w k) * Rabs (C k)) <= (g - 1) * (th * sum_n n (fun k => Rabs (w k) * Y k) + t * sum_n n (fun k => Rabs (w k) * S k))) by (apply Rmult_le_compat_l; lra).
  lra.
Qed.
Lemma chain_snoc n l m : chain n (l ++ [m]) = mat_mul n m (chain n l).
Proof. unfold chain. now rewrite fold_left_app. Qed.
Lemma back_snoc n l m : chain_back n (l ++ [m]) = mat_mul n (chain_back n l) m.
Proof. unfold chain_back. now rewrite fold_left_app. Qed.
Lemma floor_snoc n g e l m : floor_chain n g e (l ++ [m]) = fun r c => g * mat_mul n m (floor_chain n g e l) r c + e.
Proof. unfold floor_chain. now rewrite fold_left_app. Qed.
Lemma fback_snoc n g e l m : floor_back n g e (l ++ [m]) = fun r c => g * mat_mul n (floor_back n g e l) m r c + e.
Proof. unfold floor_back. now rewrite fold_left_app. Qed.
Lemma path_snoc n g e l m : floor_path n g e (l ++ [m]) = fun r => g * mat_apply n m (floor_path n g e l) r + e.
Proof. unfold floor_path. now rewrite fold_left_app. Qed.
Lemma id_abs r c : Rabs (mat_id r c) = mat_id r c.
Proof. unfold mat_id. destruct (Nat.eqb r c); [apply Rabs_R1 | apply Rabs_R0]. Qed.
Lemma chain_abs n (T : Type) (F : T -> matrix) (l : list T) : forall r c, (r < n)%nat -> (c < n)%nat -> Rabs (chain n (map F l) r c) <= chain n (map (fun t => mat_abs (F t)) l) r c.
Proof.
  induction l as [|m l IH] using rev_ind; intros r c Hr Hc; [right; apply id_abs|]. rewrite !map_app. cbn [map]. rewrite !chain_snoc. unfold mat_mul. eapply Rle_trans; [apply sum_abs|]. apply sum_le. intros k Hk. rewrite Rabs_mult.
  apply Rmult_le_compat_l; [apply Rabs_pos | now apply IH].
Qed.
Lemma back_abs n (T : Type) (F : T -> matrix) (l : list T) : forall r c, (r < n)%nat -> (c < n)%nat -> Rabs (chain_back n (map F l) r c) <= chain_back n (map (fun t => mat_abs (F t)) l) r c.
Proof.
  induction l as [|m l IH] using rev_ind; intros r c Hr Hc; [right; apply id_abs|]. rewrite !map_app. cbn [map]. rewrite !back_snoc. unfold mat_mul. eapply Rle_trans; [apply sum_abs|]. apply sum_le. intros k Hk. rewrite Rabs_mult.
  apply Rmult_le_compat_r; [apply Rabs_pos | now apply IH].
Qed.
Lemma apply_abs n (m a : matrix) (x y : nat -> R) r : (r < n)%nat -> (forall k, (k < n)%nat -> Rabs (m r k) <= a r k) -> (forall k, (k < n)%nat -> Rabs (x k) <= y k) -> Rabs (mat_apply n m x r) <= mat_apply n a y r.
Proof.
  intros Hr Ha Hx. unfold mat_apply. eapply Rle_trans; [apply sum_abs|]. apply sum_le. intros k Hk. rewrite Rabs_mult. apply Rmult_le_compat; try apply Rabs_pos; auto.
Qed.
(* (M x) with M a product: associativity *)
Lemma sum_swap n m (f : nat -> nat -> R) : sum_n n (fun i => sum_n m (fun j => f i j)) = sum_n m (fun j => sum_n n (fun i => f i j)).
Proof.
  induction n as [|n IH]; cbn; [induction m as [|m IHm]; cbn; [reflexivity | rewrite <- IHm; ring]|]. rewrite IH.
  replace (sum_n m (fun j => sum_n n (fun i => f i j)) + sum_n m (fun j => f n j)) with (1 * sum_n m (fun j => sum_n n (fun i => f i j)) + 1 * sum_n m (fun j => f n j)) by ring. rewrite <- sum_lin. apply sum_ext. intros. ring.
Qed.
Lemma apply_mul n (a b : matrix) (x : nat -> R) r : mat_apply n (mat_mul n a b) x r = mat_apply n a (mat_apply n b x) r.
Proof.
  unfold mat_apply, mat_mul. transitivity (sum_n n (fun k => sum_n n (fun j => a r j * b j k * x k))).
  - apply sum_ext. intros k _. replace (sum_n n (fun k0 => a r k0 * b k0 k) * x k) with (x k * sum_n n (fun k0 => a r k0 * b k0 k) + 0 * sum_n n (fun _ => 0)) by ring. rewrite <- sum_lin. apply sum_ext. intros. ring.
  - rewrite sum_swap. apply sum_ext. intros j _. replace (a r j * sum_n n (fun k => b j k * x k)) with (a r j * sum_n n (fun k => b j k * x k) + 0 * sum_n n (fun _ => 0)) by ring. rewrite <- sum_lin. apply sum_ext. intros. ring.
Qed.
Lemma apply_ext n (a : matrix) (x y : nat -> R) r : (forall k, (k < n)%nat -> x k = y k) -> mat_apply n a x r = mat_apply n a y r.
Proof. intros H. apply sum_ext. intros k Hk. now rewrite H. Qed.
Lemma apply_id n (x : nat -> R) r : (r < n)%nat -> mat_apply n mat_id x r = x r.
Proof.
  intros H. unfold mat_apply. induction n as [|n IH]; [lia|]. cbn. unfold mat_id at 2. destruct (Nat.eqb_spec r n) as [->|N].
  - rewrite Rmult_1_l. assert (Z : sum_n n (fun k => mat_id n k * x k) = 0). { clear. assert (Q : forall m, (m <= n)%nat -> sum_n m (fun k => mat_id n k * x k) = 0). { induction m as [|m IH]; intros L; cbn; [reflexivity|]. rewrite IH by lia. unfold mat_id. destruct (Nat.eqb_spec n m); [lia|]. ring. } now apply Q. }
    rewrite Z. ring.
  - rewrite IH by lia. ring.
Qed.
