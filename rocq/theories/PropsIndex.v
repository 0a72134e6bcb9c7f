(** Theorems: C35 for get, get_mut and set in all four build profiles and for all u32 indices. *)
From Coq Require Import Bool NArith ZArith List Lia.
From Verif Require Import Scalar Types Transform2 Transform3 Float XReal Arith SpecStruct SpecIndex ExVals.
Import ListNotations.

Lemma lin_index (prof : profile) (n r c : N) :
  obind (u32_mul prof r n) (fun x => u32_add prof x c) = if overflow_checks prof && (2 ^ 32 <=? n * r + c)%N then Panic else Ret ((n * r + c) mod 2 ^ 32)%N.
Proof.
  unfold u32_mul, u32_add. change u32_modulus with (2 ^ 32)%N. set (M := (2 ^ 32)%N). assert (MP : M <> 0%N) by discriminate. clearbody M. rewrite (N.mul_comm r n).
  destruct (N.leb_spec M (n * r + c)) as [L|L].
  - destruct (N.ltb_spec (n * r) M) as [L1|L1]; cbn [obind].
    + destruct (N.ltb_spec (n * r + c) M); [lia|]. destruct (overflow_checks prof); reflexivity.
    + destruct (overflow_checks prof); [reflexivity|]. cbn [obind andb]. destruct (N.ltb_spec ((n * r) mod M + c) M) as [L2|L2].
      * rewrite <- (N.add_mod_idemp_l (n * r) c M) by assumption. now rewrite (N.mod_small ((n * r) mod M + c)).
      * now rewrite N.add_mod_idemp_l.
  - rewrite andb_false_r. destruct (N.ltb_spec (n * r) M); [|lia]. cbn [obind]. destruct (N.ltb_spec (n * r + c) M); [|lia]. now rewrite N.mod_small.
Qed.
Lemma slot_cases (prof : profile) (n r c : N) {T} (k : N -> outcome T) : (forall i, (n * n <= i)%N -> k i = Panic) ->
  obind (obind (debug_assert prof (r <? n)%N) (fun _ => obind (debug_assert prof (c <? n)%N) (fun _ => obind (u32_mul prof r n) (fun x => u32_add prof x c)))) k
  = match slot prof n r c with Some i => k i | None => Panic end.
Proof.
  intros K. rewrite lin_index. unfold slot, debug_assert. rewrite (N.ltb_antisym n r), (N.ltb_antisym n c), !negb_involutive.
  destruct (debug_assertions prof); cbn [andb]; [destruct (n <=? r)%N; [reflexivity|]; destruct (n <=? c)%N; [reflexivity|] |]; cbn [orb andb obind];
    (destruct (overflow_checks prof && _); [reflexivity|]); cbn [obind]; cbv zeta; (destruct (N.ltb_spec ((n * r + c) mod 2 ^ 32) (n * n)); [reflexivity | now apply K]).
Qed.
Lemma nine_cases i : (i < 9)%N -> i = 0%N \/ i = 1%N \/ i = 2%N \/ i = 3%N \/ i = 4%N \/ i = 5%N \/ i = 6%N \/ i = 7%N \/ i = 8%N.
Proof. lia. Qed.
Lemma sixteen_cases i : (i < 16)%N -> i = 0%N \/ i = 1%N \/ i = 2%N \/ i = 3%N \/ i = 4%N \/ i = 5%N \/ i = 6%N \/ i = 7%N \/ i = 8%N \/ i = 9%N \/ i = 10%N \/ i = 11%N \/ i = 12%N \/ i = 13%N \/ i = 14%N \/ i = 15%N.
Proof. lia. Qed.
Lemma slot_lt prof n r c i : slot prof n r c = Some i -> (i < n * n)%N.
Proof. unfold slot. destruct (_ && _); [discriminate|]. destruct (_ && _); [discriminate|]. cbv zeta. destruct (N.ltb_spec ((n * r + c) mod 2 ^ 32) (n * n)); [now intros [= <-] | discriminate]. Qed.
Lemma big3 {T} i (a : N -> outcome T) : (forall p, (8 < N.pos p)%N -> a (N.pos p) = Panic) -> (9 <= i)%N -> a i = Panic.
Proof. intros H L. destruct i; [lia|]. apply H. lia. Qed.

Section T.
Context {A : arith}.
Lemma at3_big (m : Matrix3x3 (num A)) i : (9 <= i)%N -> m3_at m i = Panic.
Proof. intros L. unfold m3_at. destruct i as [|i]; [lia|]. do 5 (try (destruct i as [i|i|]; try reflexivity; try lia)). Qed.
Lemma put3_big (m : Matrix3x3 (num A)) i v : (9 <= i)%N -> m3_put m i v = Panic.
Proof. intros L. destruct m. unfold m3_put. destruct i as [|i]; [lia|]. do 5 (try (destruct i as [i|i|]; try reflexivity; try lia)). Qed.
Lemma at4_big (m : Matrix4x4 (num A)) i : (16 <= i)%N -> m4_at m i = Panic.
Proof. intros L. unfold m4_at. destruct i as [|i]; [lia|]. do 5 (try (destruct i as [i|i|]; try reflexivity; try lia)). Qed.
Lemma put4_big (m : Matrix4x4 (num A)) i v : (16 <= i)%N -> m4_put m i v = Panic.
Proof. intros L. destruct m. unfold m4_put. destruct i as [|i]; [lia|]. do 5 (try (destruct i as [i|i|]; try reflexivity; try lia)). Qed.
End T.

Theorem C35_every_profile_3x3 : forall (A : arith) (prof : profile) (m : Matrix3x3 (num A)) (r c : N) (v d : num A) (f : num A -> num A),
  match slot prof 3 r c with
  | Some i => let x := nth (N.to_nat i) (m3_comps m) d in m3_get prof m r c = Ret x /\
      (exists m', m3_set prof m r c v = Ret m' /\ m3_comps m' = replaced (m3_comps m) (N.to_nat i) v) /\
      (exists m', m3_get_mut prof m r c f = Ret m' /\ m3_comps m' = replaced (m3_comps m) (N.to_nat i) (f x))
  | None => m3_get prof m r c = Panic /\ m3_set prof m r c v = Panic /\ m3_get_mut prof m r c f = Panic
  end.
Proof.
  intros A prof m r c v d f. unfold m3_get, m3_set, m3_get_mut, m3_linear_index.
  rewrite (slot_cases prof 3 r c (fun i => m3_at m i) (at3_big m)). rewrite (slot_cases prof 3 r c (fun i => m3_put m i v) (fun i => put3_big m i v)).
  rewrite (slot_cases prof 3 r c (fun i => obind (m3_at m i) (fun x => m3_put m i (f x)))) by (intros i L; now rewrite at3_big).
  destruct (slot prof 3 r c) as [i|] eqn:E; [|tauto]. apply slot_lt in E. apply nine_cases in E. destruct m. cbv zeta.
  repeat (destruct E as [->|E]; [split; [reflexivity|]; split; eexists; split; reflexivity|]). subst i. split; [reflexivity|]; split; eexists; split; reflexivity.
Qed.
Print Assumptions C35_every_profile_3x3.
Theorem C35_every_profile_4x4 : forall (A : arith) (prof : profile) (m : Matrix4x4 (num A)) (r c : N) (v d : num A) (f : num A -> num A),
  match slot prof 4 r c with
  | Some i => let x := nth (N.to_nat i) (m4_comps m) d in m4_get prof m r c = Ret x /\
      (exists m', m4_set prof m r c v = Ret m' /\ m4_comps m' = replaced (m4_comps m) (N.to_nat i) v) /\
      (exists m', m4_get_mut prof m r c f = Ret m' /\ m4_comps m' = replaced (m4_comps m) (N.to_nat i) (f x))
  | None => m4_get prof m r c = Panic /\ m4_set prof m r c v = Panic /\ m4_get_mut prof m r c f = Panic
  end.
Proof.
  intros A prof m r c v d f. unfold m4_get, m4_set, m4_get_mut, m4_linear_index.
  rewrite (slot_cases prof 4 r c (fun i => m4_at m i) (at4_big m)). rewrite (slot_cases prof 4 r c (fun i => m4_put m i v) (fun i => put4_big m i v)).
  rewrite (slot_cases prof 4 r c (fun i => obind (m4_at m i) (fun x => m4_put m i (f x)))) by (intros i L; now rewrite at4_big).
  destruct (slot prof 4 r c) as [i|] eqn:E; [|tauto]. apply slot_lt in E. apply sixteen_cases in E. destruct m. cbv zeta.
  repeat (destruct E as [->|E]; [split; [reflexivity|]; split; eexists; split; reflexivity|]). subst i. split; [reflexivity|]; split; eexists; split; reflexivity.
Qed.
Print Assumptions C35_every_profile_4x4.
(* the four profiles on in-range, out-of-range and overflowing pairs *)
Example C35_slot_example : (forall prof, slot prof 4 2 3 = Some 11%N) /\ slot dev_profile 4 0 6 = None /\ slot release_profile 4 0 6 = Some 6%N /\
  slot release_profile 4 1073741824 5 = Some 5%N /\ slot {| debug_assertions := false; overflow_checks := true |} 4 1073741824 5 = None /\
  slot {| debug_assertions := true; overflow_checks := false |} 4 1073741824 5 = None /\ slot release_profile 3 2 3 = None.
Proof. repeat split; try reflexivity. intros [[] []]; reflexivity. Qed.
