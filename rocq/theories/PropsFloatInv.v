(** Property theorems: inverses of matrices in floating point (C39). *)
From Coq Require Import Bool NArith ZArith Reals List Lra Lia.
From Verif Require Import Scalar Types Vector2 Vector3 Point2 Point3 Ray BoundingBox2 BoundingBox3 Transform2 Transform3 Float
  XReal Arith SpecOrder SpecStruct SpecFloat SpecReal SpecErr ExVals FloatInv.
Import ListNotations.
Local Open Scope R_scope.
(** * C39: inverse in floating point *)
Theorem C39_small_integers_3x3 : forall (f : format) (P : platform f) (m : Matrix3x3 (num (IEEE f P))) (B : Z), (6 * (B * B * B) < 2 ^ prec f)%Z ->
  Forall (fun x => Finite x /\ exists n, real_of x = IZR n /\ (Z.abs n <= B)%Z) (m3_comps m) ->
  let M := ent3 (RM3 m) in
  (mat_det 3 M = 0 -> m3_inverse m = Err) /\
  (mat_det 3 M <> 0 -> exists (i : Matrix3x3 (num (IEEE f P))) (N : matrix), m3_inverse m = Ok i /\ MFinite3 i /\
     mat_eq 3 (mat_mul 3 M N) mat_id /\ mat_eq 3 (mat_mul 3 N M) mat_id /\
     forall r c, (r < 3)%nat -> (c < 3)%nat -> Rabs (ent3 (RM3 i) r c - N r c) <= unit_roundoff (IEEE f P) * Rabs (N r c)).
Proof. exact C39_small_integers_3x3_pf. Qed.
Print Assumptions C39_small_integers_3x3.
Theorem C39_small_integers_4x4 : forall (f : format) (P : platform f) (prof : profile) (m : Matrix4x4 (num (IEEE f P))) (B : Z), (24 * (B * B * B * B) < 2 ^ prec f)%Z ->
  Forall (fun x => Finite x /\ exists n, real_of x = IZR n /\ (Z.abs n <= B)%Z) (m4_comps m) ->
  let M := ent4 (RM4 m) in
  (mat_det 4 M = 0 -> m4_inverse prof m = Ret Err) /\
  (mat_det 4 M <> 0 -> exists (i : Matrix4x4 (num (IEEE f P))) (N : matrix), m4_inverse prof m = Ret (Ok i) /\ MFinite4 i /\
     mat_eq 4 (mat_mul 4 M N) mat_id /\ mat_eq 4 (mat_mul 4 N M) mat_id /\
     forall r c, (r < 4)%nat -> (c < 4)%nat -> Rabs (ent4 (RM4 i) r c - N r c) <= unit_roundoff (IEEE f P) * Rabs (N r c)).
Proof. exact C39_small_integers_4x4_pf. Qed.
Print Assumptions C39_small_integers_4x4.
(** an Err result is only given when the matrix is within rounding error of a singular one; so a matrix whose determinant exceeds the bound is always inverted *)
Theorem C39_err_means_nearly_singular_3x3 : forall (A : arith) (m : Matrix3x3 (num A)) (B : R), Forall (fun x => Rabs (real_of x) <= B) (m3_comps m) -> m3_inverse m = Err ->
  let M := ent3 (RM3 m) in
  MFinite3 m /\ Rabs (mat_det 3 M) <= ((1 + unit_roundoff A) ^ 7 - 1) * mat_perm 3 (mat_abs M) + 6 * min_subnormal A * (B + 1).
Proof. exact C39_err_means_nearly_singular_3x3_pf. Qed.
Print Assumptions C39_err_means_nearly_singular_3x3.
Theorem C39_err_means_nearly_singular_4x4 : forall (A : arith) (prof : profile) (m : Matrix4x4 (num A)) (B : R), Forall (fun x => Rabs (real_of x) <= B) (m4_comps m) -> m4_inverse prof m = Ret Err ->
  let M := ent4 (RM4 m) in
  MFinite4 m /\ Rabs (mat_det 4 M) <= ((1 + unit_roundoff A) ^ 11 - 1) * mat_perm 4 (mat_abs M) + min_subnormal A * (24 * B * (B + 1) + 4).
Proof. exact C39_err_means_nearly_singular_4x4_pf. Qed.
Print Assumptions C39_err_means_nearly_singular_4x4.
(* the finite matrices below are why C39 does not hold for every finite matrix *)
(* invertible, but the determinant 2^-1200 underflows to 0 *)
Definition under3 : Matrix3x3 (num A64) := m3_scale (d64 1 (-600)) (d64 1 (-600)).
Definition under4 : Matrix4x4 (num A64) := m4_scale (d64 1 (-600)) (d64 1 (-600)) (d64 1 0).
Theorem C39_invertible_rejected_refuted : MFinite3 under3 /\ m3_inverse under3 = Err /\ MFinite4 under4 /\ (forall prof, m4_inverse prof under4 = Ret Err) /\
  (let s := d64 1 600 in Eqs (smul (m3_0 under3) s) sone /\ Eqs (smul (m3_4 under3) s) sone /\ Eqs (m3_8 under3) sone).
Proof.
  split; [repeat constructor; vm_compute; reflexivity|]. split; [apply inv3_err; vm_compute; reflexivity|].
  split; [repeat constructor; vm_compute; reflexivity|]. split; [intros prof; apply inv4_err; vm_compute; reflexivity|].
  cbv zeta. repeat apply conj; vm_compute; reflexivity.
Qed.
Print Assumptions C39_invertible_rejected_refuted.
(* the determinant overflows: Ok, with NaN and zero entries *)
Definition over3 : Matrix3x3 (num A64) := m3_scale (d64 1 600) (d64 1 600).
Definition over4 : Matrix4x4 (num A64) := m4_scale (d64 1 600) (d64 1 600) (d64 1 0).
Theorem C39_nan_result_refuted : MFinite3 over3 /\ MFinite4 over4 /\
  (exists i, m3_inverse over3 = Ok i /\ snan (m3_8 i) = true /\ Eqs (m3_0 i) szero) /\
  (forall prof, exists i, m4_inverse prof over4 = Ret (Ok i) /\ snan (m4_15 i) = true /\ Eqs (m4_0 i) szero).
Proof.
  split; [repeat constructor; vm_compute; reflexivity|]. split; [repeat constructor; vm_compute; reflexivity|].
  split; [|intros prof]; (eexists; split; [first [apply inv3_ok | apply inv4_ok]; vm_compute; reflexivity|]; split; vm_compute; reflexivity).
Qed.
Print Assumptions C39_nan_result_refuted.
(* singular (the third row is the sum of the first two), but rounding makes the computed determinant 2^28 *)
Definition sing3 : Matrix3x3 (num A64) :=
  let a := d64 134217727 0 in let b := d64 134217729 0 in let o := d64 0 0 in mkM3 o a b a o o a a b.
Definition sing4 : Matrix4x4 (num A64) :=
  let a := d64 134217727 0 in let b := d64 134217729 0 in let o := d64 0 0 in let i := d64 1 0 in mkM4 o a b o a o o o a a b o o o o i.
Theorem C39_singular_accepted_refuted :
  mat_det 3 (ent3 (RM3 sing3)) = 0 /\ (exists i, m3_inverse sing3 = Ok i) /\
  mat_det 4 (ent4 (RM4 sing4)) = 0 /\ (forall prof, exists i, m4_inverse prof sing4 = Ret (Ok i)).
Proof.
  assert (Ra : real_of (A := A64) (d64 134217727 0) = 134217727) by (apply real_flit; reflexivity).
  assert (Rb : real_of (A := A64) (d64 134217729 0) = 134217729) by (apply real_flit; reflexivity).
  assert (Ro : real_of (A := A64) (d64 0 0) = 0) by (apply real_flit; reflexivity).
  assert (Ri : real_of (A := A64) (d64 1 0) = 1) by (apply real_flit; reflexivity).
  split; [|split; [|split]].
  - unfold RM3, sing3. cbn [m3_0 m3_1 m3_2 m3_3 m3_4 m3_5 m3_6 m3_7 m3_8]. rewrite Ra, Rb, Ro.
    cbv [mat_det mat_minor sum_n ent3 nth Nat.ltb Nat.leb Nat.mul Nat.add pow m3_0 m3_1 m3_2 m3_3 m3_4 m3_5 m3_6 m3_7 m3_8]. ring.
  - eexists. apply inv3_ok. vm_compute. reflexivity.
  - unfold RM4, sing4. cbn [m4_0 m4_1 m4_2 m4_3 m4_4 m4_5 m4_6 m4_7 m4_8 m4_9 m4_10 m4_11 m4_12 m4_13 m4_14 m4_15]. rewrite Ra, Rb, Ro, Ri.
    cbv [mat_det mat_minor sum_n ent4 nth Nat.ltb Nat.leb Nat.mul Nat.add pow m4_0 m4_1 m4_2 m4_3 m4_4 m4_5 m4_6 m4_7 m4_8 m4_9 m4_10 m4_11 m4_12 m4_13 m4_14 m4_15]. ring.
  - intros prof. eexists. apply inv4_ok. vm_compute. reflexivity.
Qed.
Print Assumptions C39_singular_accepted_refuted.
(* the hypotheses of the theorems above are met: a matrix of small integers, and a rejected matrix *)
Example C39_example : let m := mkM3 (d64 2 0) (d64 7 0) (nd64 3 0) (d64 1 0) (d64 5 0) (d64 0 0) (d64 4 0) (nd64 9 0) (d64 6 0) : Matrix3x3 (num A64) in
  Forall (fun x => Finite x /\ exists n, real_of x = IZR n /\ (Z.abs n <= 9)%Z) (m3_comps m) /\ (6 * (9 * 9 * 9) < 2 ^ prec F64)%Z /\
  m3_inverse (mkM3 (d64 1 0) (d64 2 0) (d64 3 0) (d64 4 0) (d64 5 0) (d64 6 0) (d64 7 0) (d64 8 0) (d64 9 0) : Matrix3x3 (num A64)) = Err.
Proof.
  split; [|split; [reflexivity | apply inv3_err; vm_compute; reflexivity]].
  repeat constructor; try (vm_compute; reflexivity); (eexists; split; [apply real_flit; reflexivity | lia]).
Qed.
