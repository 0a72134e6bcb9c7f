(** Proofs: histories of unions (points, boxes, NaN coordinates), lattice laws of box intersection, hull of the corners. *)
From Coq Require Import Bool NArith ZArith List Lia.
From Verif Require Import Scalar Types Vector2 Vector3 Point2 Point3 Ray BoundingBox2 BoundingBox3 OrdLaws Arith SpecOrder OrderProofs OrderBox SpecHist.
Import ListNotations.
Section H1.
Context {S : Type} {O : ScalarOps S} (L : OrdLaws O).
Lemma H_min_nan (x y : S) : NoNaN x -> ~ NoNaN y -> s_min x y = x.
Proof. intros Nx H. unfold s_min. assert (E : snan y = true) by (unfold NoNaN in H; destruct (snan y); [reflexivity | now elim H]). now apply (ol_min_nan2 _ L). Qed.
Lemma H_max_nan (x y : S) : NoNaN x -> ~ NoNaN y -> s_max x y = x.
Proof. intros Nx H. unfold s_max. assert (E : snan y = true) by (unfold NoNaN in H; destruct (snan y); [reflexivity | now elim H]). now apply (ol_max_nan2 _ L). Qed.
Lemma NoNaN_dec (x : S) : NoNaN x \/ ~ NoNaN x.
Proof. unfold NoNaN. destruct (snan x); [right; discriminate | now left]. Qed.
(* one dimension of union_point *)
Definition ulo (lo hi x : S) : S := s_min (s_min lo x) (s_max hi x).
Definition uhi (lo hi x : S) : S := s_max (s_min lo x) (s_max hi x).
Lemma u_num lo hi x : Le lo hi -> NoNaN x ->
  Le (ulo lo hi x) (uhi lo hi x) /\ Le (ulo lo hi x) lo /\ Le hi (uhi lo hi x) /\ Le (ulo lo hi x) x /\ Le x (uhi lo hi x) /\
  (Eqs (ulo lo hi x) lo \/ Eqs (ulo lo hi x) x) /\ (Eqs (uhi lo hi x) hi \/ Eqs (uhi lo hi x) x).
Proof.
  intros H N. destruct (Le_nan L _ _ H) as [N1 N2]. unfold ulo, uhi.
  repeat apply conj; try osolve L.
  - destruct (min_spec L lo x N1 N) as [[E K]|[E K]]; rewrite E; [left|right]; osolve L.
  - destruct (max_spec L hi x N2 N) as [[E K]|[E K]]; rewrite E; [left|right]; osolve L.
Qed.
Lemma u_nan lo hi x : Le lo hi -> ~ NoNaN x -> Eqs (ulo lo hi x) lo /\ Eqs (uhi lo hi x) hi.
Proof. intros H N. destruct (Le_nan L _ _ H) as [N1 N2]. unfold ulo, uhi. rewrite (H_min_nan _ x), (H_max_nan _ x) by assumption. split; osolve L. Qed.
Lemma Eqs_tr x y z : Eqs x y -> Eqs y z -> Eqs x z.
Proof. rewrite !(Eqs_iff L). intros [] []. split; eapply (Le_trans L); eassumption. Qed.
Lemma Eqs_sy x y : Eqs x y -> Eqs y x.
Proof. rewrite !(Eqs_iff L). tauto. Qed.
Lemma Eqs_LeL x y z : Eqs x y -> Le y z -> Le x z.
Proof. rewrite (Eqs_iff L). intros [] ?. eapply (Le_trans L); eassumption. Qed.
Lemma Eqs_LeR x y z : Eqs x y -> Le z y -> Le z x.
Proof. rewrite (Eqs_iff L). intros [] ?. eapply (Le_trans L); eassumption. Qed.
Lemma Eqs_num x y : Eqs x y -> NoNaN x /\ NoNaN y.
Proof. rewrite (Eqs_iff L). intros [H _]. apply (Le_nan L _ _ H). Qed.
(* the fold over one dimension, from an ordered state *)
Lemma u_fold (l : list S) lo hi : Le lo hi ->
  let st := fold_left (fun st x => (ulo (fst st) (snd st) x, uhi (fst st) (snd st) x)) l (lo, hi) in
  Le (fst st) (snd st) /\ Le (fst st) lo /\ Le hi (snd st) /\
  (forall x, In x l -> NoNaN x -> Le (fst st) x /\ Le x (snd st)) /\
  (Eqs (fst st) lo \/ exists x, In x l /\ Eqs (fst st) x) /\ (Eqs (snd st) hi \/ exists x, In x l /\ Eqs (snd st) x).
Proof.
  revert lo hi. induction l as [|y l IH]; intros lo hi H; cbn [fold_left fst snd].
  - destruct (Le_nan L _ _ H). repeat apply conj; try (now apply (Le_refl L)); try assumption; try (now left; apply (Eqs_refl L)). intros x [].
  - destruct (NoNaN_dec y) as [N|N].
    + destruct (u_num lo hi y H N) as (W & A1 & A2 & A3 & A4 & A5 & A6).
      destruct (IH _ _ W) as (B1 & B2 & B3 & B4 & B5 & B6). cbv zeta in *.
      repeat apply conj; try assumption; try (eapply (Le_trans L); eassumption).
      * intros x [<-|Hx] Nx; [split; eapply (Le_trans L); eassumption | now apply B4].
      * destruct B5 as [B5|(x & I & B5)]; [|right; exists x; split; [now right | exact B5]].
        destruct A5 as [A5|A5]; [left | right; exists y; split; [now left|]]; eapply Eqs_tr; eassumption.
      * destruct B6 as [B6|(x & I & B6)]; [|right; exists x; split; [now right | exact B6]].
        destruct A6 as [A6|A6]; [left | right; exists y; split; [now left|]]; eapply Eqs_tr; eassumption.
    + destruct (u_nan lo hi y H N) as [A1 A2].
      assert (W : Le (ulo lo hi y) (uhi lo hi y)) by (eapply Eqs_LeL; [exact A1|]; eapply Eqs_LeR; eassumption).
      destruct (IH _ _ W) as (B1 & B2 & B3 & B4 & B5 & B6). cbv zeta in *.
      apply (Eqs_iff L) in A1, A2. destruct A1 as [A1 A1'], A2 as [A2 A2'].
      repeat apply conj; try assumption; try (eapply (Le_trans L); eassumption).
      * intros x [<-|Hx] Nx; [contradiction | now apply B4].
      * destruct B5 as [B5|(x & I & B5)]; [left; eapply Eqs_tr; [exact B5|]; now apply (Eqs_iff L) | right; exists x; split; [now right | exact B5]].
      * destruct B6 as [B6|(x & I & B6)]; [left; eapply Eqs_tr; [exact B6|]; now apply (Eqs_iff L) | right; exists x; split; [now right | exact B6]].
Qed.
Lemma u_first_num x : NoNaN x -> Eqs (ulo sinf sninf x) x /\ Eqs (uhi sinf sninf x) x.
Proof.
  intros N. pose proof (inf_NoNaN L) as I1. pose proof (ninf_NoNaN L) as I2. pose proof (Le_inf L x N). pose proof (ninf_Le L x N). unfold ulo, uhi. split; osolve L.
Qed.
Lemma u_first_nan x : ~ NoNaN x -> Eqs (ulo sinf sninf x) sninf /\ Eqs (uhi sinf sninf x) sinf.
Proof.
  intros N. unfold ulo, uhi. pose proof (inf_NoNaN L) as I1. pose proof (ninf_NoNaN L) as I2. rewrite (H_min_nan _ x), (H_max_nan _ x) by assumption. pose proof (Le_inf L _ I2). split; osolve L.
Qed.
End H1.
Section HF2.
Context {S : Type} {O : ScalarOps S} (L : OrdLaws O).
Lemma up_coord2 (b : BoundingBox2 S) p d :
  coord2 (bb2_min (bb2_union_point b p)) d = ulo (coord2 (bb2_min b) d) (coord2 (bb2_max b) d) (coord2 p d) /\
  coord2 (bb2_max (bb2_union_point b p)) d = uhi (coord2 (bb2_min b) d) (coord2 (bb2_max b) d) (coord2 p d).
Proof. destruct d; split; reflexivity. Qed.
Lemma fold_coord2 l (b : BoundingBox2 S) d :
  (coord2 (bb2_min (fold_left bb2_union_point l b)) d, coord2 (bb2_max (fold_left bb2_union_point l b)) d) =
  fold_left (fun st x => (ulo (fst st) (snd st) x, uhi (fst st) (snd st) x)) (map (fun p => coord2 p d) l) (coord2 (bb2_min b) d, coord2 (bb2_max b) d).
Proof.
  revert b. induction l as [|p l IH]; intros b; [reflexivity|]. cbn [fold_left map fst snd]. rewrite IH.
  destruct (up_coord2 b p d) as [-> ->]. reflexivity.
Qed.
End HF2.
Section HF3.
Context {S : Type} {O : ScalarOps S} (L : OrdLaws O).
Lemma up_coord3 (b : BoundingBox3 S) p d :
  coord3 (bb3_min (bb3_union_point b p)) d = ulo (coord3 (bb3_min b) d) (coord3 (bb3_max b) d) (coord3 p d) /\
  coord3 (bb3_max (bb3_union_point b p)) d = uhi (coord3 (bb3_min b) d) (coord3 (bb3_max b) d) (coord3 p d).
Proof. destruct d; split; reflexivity. Qed.
Lemma fold_coord3 l (b : BoundingBox3 S) d :
  (coord3 (bb3_min (fold_left bb3_union_point l b)) d, coord3 (bb3_max (fold_left bb3_union_point l b)) d) =
  fold_left (fun st x => (ulo (fst st) (snd st) x, uhi (fst st) (snd st) x)) (map (fun p => coord3 p d) l) (coord3 (bb3_min b) d, coord3 (bb3_max b) d).
Proof.
  revert b. induction l as [|p l IH]; intros b; [reflexivity|]. cbn [fold_left map fst snd]. rewrite IH.
  destruct (up_coord3 b p d) as [-> ->]. reflexivity.
Qed.
End HF3.
Lemma C60_growing_with_nan_2d_pf : forall (A : arith) (p0 : Point2 (num A)) (l : list (Point2 (num A))) (d : Dimension2),
  let b := fold_left bb2_union_point (p0 :: l) bb2_empty in let lo := coord2 (bb2_min b) d in let hi := coord2 (bb2_max b) d in
  (NoNaN (coord2 p0 d) ->
     (forall p, In p (p0 :: l) -> NoNaN (coord2 p d) -> Le lo (coord2 p d) /\ Le (coord2 p d) hi) /\
     (exists p, In p (p0 :: l) /\ Eqs lo (coord2 p d)) /\ (exists p, In p (p0 :: l) /\ Eqs hi (coord2 p d))) /\
  (~ NoNaN (coord2 p0 d) -> Eqs lo sninf /\ Eqs hi sinf).
Proof.
  intros A p0 l d. cbv zeta. set (L := num_OrdLaws A). cbn [fold_left]. pose proof (fold_coord2 l (bb2_union_point bb2_empty p0) d) as E.
  destruct (up_coord2 bb2_empty p0 d) as [E1 E2]. rewrite E1, E2 in E.
  assert (K : coord2 (bb2_min (bb2_empty : BoundingBox2 (num A))) d = sinf /\ coord2 (bb2_max (bb2_empty : BoundingBox2 (num A))) d = sninf) by (destruct d; split; reflexivity).
  destruct K as [-> ->] in E. set (b := fold_left bb2_union_point l (bb2_union_point bb2_empty p0)) in *.
  split; intros N.
  - destruct (u_first_num L _ N) as [F1 F2]. set (lo0 := ulo sinf sninf (coord2 p0 d)) in *. set (hi0 := uhi sinf sninf (coord2 p0 d)) in *.
    assert (W : Le lo0 hi0) by (eapply (Eqs_LeL L); [exact F1|]; eapply (Eqs_LeR L); [exact F2 | now apply (Le_refl L)]).
    destruct (u_fold L (map (fun p => coord2 p d) l) lo0 hi0 W) as (B1 & B2 & B3 & B4 & B5 & B6). rewrite <- E in *. cbn [fst snd] in *.
    repeat apply conj.
    + intros p [<-|I] Np.
      * split; [eapply (Le_trans L); [exact B2|]; eapply (Eqs_LeL L); [exact F1 | now apply (Le_refl L)] | eapply (Le_trans L); [|exact B3]; eapply (Eqs_LeR L); [exact F2 | now apply (Le_refl L)]].
      * apply B4; [|exact Np]. now apply (in_map (fun p => coord2 p d)).
    + destruct B5 as [B5|(x & I & B5)].
      * exists p0. split; [now left|]. eapply (Eqs_tr L); eassumption.
      * apply in_map_iff in I. destruct I as (q & <- & I). exists q. split; [now right | exact B5].
    + destruct B6 as [B6|(x & I & B6)].
      * exists p0. split; [now left|]. eapply (Eqs_tr L); eassumption.
      * apply in_map_iff in I. destruct I as (q & <- & I). exists q. split; [now right | exact B6].
  - destruct (u_first_nan L _ N) as [F1 F2]. set (lo0 := ulo sinf sninf (coord2 p0 d)) in *. set (hi0 := uhi sinf sninf (coord2 p0 d)) in *.
    assert (W : Le lo0 hi0). { eapply (Eqs_LeL L); [exact F1|]. apply (ninf_Le L). apply (Eqs_num L _ _ F2). }
    destruct (u_fold L (map (fun p => coord2 p d) l) lo0 hi0 W) as (B1 & B2 & B3 & _). rewrite <- E in *. cbn [fst snd] in *.
    destruct (Le_nan L _ _ B1). apply (Eqs_iff L) in F1, F2. destruct F1, F2. split; apply (Eqs_iff L); split.
    + eapply (Le_trans L); eassumption.
    + now apply (ninf_Le L).
    + now apply (Le_inf L).
    + eapply (Le_trans L); eassumption.
Qed.
Lemma C60_growing_with_nan_3d_pf : forall (A : arith) (p0 : Point3 (num A)) (l : list (Point3 (num A))) (d : Dimension3),
  let b := fold_left bb3_union_point (p0 :: l) bb3_empty in let lo := coord3 (bb3_min b) d in let hi := coord3 (bb3_max b) d in
  (NoNaN (coord3 p0 d) ->
     (forall p, In p (p0 :: l) -> NoNaN (coord3 p d) -> Le lo (coord3 p d) /\ Le (coord3 p d) hi) /\
     (exists p, In p (p0 :: l) /\ Eqs lo (coord3 p d)) /\ (exists p, In p (p0 :: l) /\ Eqs hi (coord3 p d))) /\
  (~ NoNaN (coord3 p0 d) -> Eqs lo sninf /\ Eqs hi sinf).
Proof.
  intros A p0 l d. cbv zeta. set (L := num_OrdLaws A). cbn [fold_left]. pose proof (fold_coord3 l (bb3_union_point bb3_empty p0) d) as E.
  destruct (up_coord3 bb3_empty p0 d) as [E1 E2]. rewrite E1, E2 in E.
  assert (K : coord3 (bb3_min (bb3_empty : BoundingBox3 (num A))) d = sinf /\ coord3 (bb3_max (bb3_empty : BoundingBox3 (num A))) d = sninf) by (destruct d; split; reflexivity).
  destruct K as [-> ->] in E. set (b := fold_left bb3_union_point l (bb3_union_point bb3_empty p0)) in *.
  split; intros N.
  - destruct (u_first_num L _ N) as [F1 F2]. set (lo0 := ulo sinf sninf (coord3 p0 d)) in *. set (hi0 := uhi sinf sninf (coord3 p0 d)) in *.
    assert (W : Le lo0 hi0) by (eapply (Eqs_LeL L); [exact F1|]; eapply (Eqs_LeR L); [exact F2 | now apply (Le_refl L)]).
    destruct (u_fold L (map (fun p => coord3 p d) l) lo0 hi0 W) as (B1 & B2 & B3 & B4 & B5 & B6). rewrite <- E in *. cbn [fst snd] in *.
    repeat apply conj.
    + intros p [<-|I] Np.
      * split; [eapply (Le_trans L); [exact B2|]; eapply (Eqs_LeL L); [exact F1 | now apply (Le_refl L)] | eapply (Le_trans L); [|exact B3]; eapply (Eqs_LeR L); [exact F2 | now apply (Le_refl L)]].
      * apply B4; [|exact Np]. now apply (in_map (fun p => coord3 p d)).
    + destruct B5 as [B5|(x & I & B5)].
      * exists p0. split; [now left|]. eapply (Eqs_tr L); eassumption.
      * apply in_map_iff in I. destruct I as (q & <- & I). exists q. split; [now right | exact B5].
    + destruct B6 as [B6|(x & I & B6)].
      * exists p0. split; [now left|]. eapply (Eqs_tr L); eassumption.
      * apply in_map_iff in I. destruct I as (q & <- & I). exists q. split; [now right | exact B6].
  - destruct (u_first_nan L _ N) as [F1 F2]. set (lo0 := ulo sinf sninf (coord3 p0 d)) in *. set (hi0 := uhi sinf sninf (coord3 p0 d)) in *.
    assert (W : Le lo0 hi0). { eapply (Eqs_LeL L); [exact F1|]. apply (ninf_Le L). apply (Eqs_num L _ _ F2). }
    destruct (u_fold L (map (fun p => coord3 p d) l) lo0 hi0 W) as (B1 & B2 & B3 & _). rewrite <- E in *. cbn [fst snd] in *.
    destruct (Le_nan L _ _ B1). apply (Eqs_iff L) in F1, F2. destruct F1, F2. split; apply (Eqs_iff L); split.
    + eapply (Le_trans L); eassumption.
    + now apply (ninf_Le L).
    + now apply (Le_inf L).
    + eapply (Le_trans L); eassumption.
Qed.
Section HM2.
Context {S : Type} {O : ScalarOps S} (L : OrdLaws O).
Lemma hist_from2 (l : list (item2 S)) : Forall item_ok2 l -> forall b, Ordered2 b ->
  let r := fold_left grow2 l b in
  Ordered2 r /\ Incl2 b r /\ (forall i, In i l -> covers2 r i) /\
  (forall c, Incl2 b c -> (forall i, In i l -> covers2 c i) -> Incl2 r c).
Proof.
  induction 1 as [|i l Hi Hl IH]; intros b Hb; cbn [fold_left].
  - split; [auto|split; [|split]]. + intros p; exact (fun x => x). + intros i []. + intros c H _; exact H.
  - assert (W : Ordered2 (grow2 b i) /\ Incl2 b (grow2 b i) /\ covers2 (grow2 b i) i /\ forall c, Incl2 b c -> covers2 c i -> Incl2 (grow2 b i) c).
    { destruct i as [p|a]; cbn [item_ok2 grow2 covers2] in *; (split; [|split; [|split]]).
      - now apply bb2_union_point_ordered. - now apply bb2_union_point_l. - now apply bb2_union_point_in. - intros c; now apply bb2_union_point_least.
      - now apply bb2_union_ordered. - now apply bb2_union_l. - now apply bb2_union_r. - intros c; now apply bb2_union_least. }
    destruct W as (W1 & W2 & W3 & W4). destruct (IH _ W1) as (R1 & R2 & R3 & R4). cbv zeta in *. split; [auto|split; [|split]].
    + intros p Hp. apply R2, W2, Hp.
    + intros j [<-|Hj]; [|now apply R3]. destruct i; cbn [covers2] in *; [now apply R2 | intros p Hp; now apply R2, W3].
    + intros c C1 C2. apply R4; [apply W4; [exact C1 | apply C2; now left] | intros j Hj; apply C2; now right].
Qed.
Lemma first2 (i : item2 S) : item_ok2 i -> Ordered2 (grow2 bb2_empty i) /\ covers2 (grow2 bb2_empty i) i /\ (forall c, covers2 c i -> Incl2 (grow2 bb2_empty i) c).
Proof.
  destruct i as [p|a]; cbn [item_ok2 grow2 covers2]; intros H.
  - destruct (bb2_first L p H) as [E W]. split; [exact W|]. assert (Wp : Ordered2 (mkBB2 p p)) by osolve L.
    pose proof (proj1 (BEq2_iff L _ _ W Wp) E) as Q. split; [apply Q; osolve L|]. intros c Hc q Hq. apply Q in Hq. osolve L.
  - pose proof (bb2_union_empty_l L a H) as E.
    assert (W : Ordered2 (bb2_union bb2_empty a)). { unfold BEq2, PEq2 in E. setoid_rewrite (Eqs_iff L) in E. revert E. generalize (bb2_union bb2_empty a). intros r E. osolve L. }
    pose proof (proj1 (BEq2_iff L _ _ W H) E) as Q. split; [exact W|]. split; [intros q Hq; now apply Q|]. intros c Hc q Hq. apply Hc. now apply Q.
Qed.
End HM2.
Section HM3.
Context {S : Type} {O : ScalarOps S} (L : OrdLaws O).
Lemma hist_from3 (l : list (item3 S)) : Forall item_ok3 l -> forall b, Ordered3 b ->
  let r := fold_left grow3 l b in
  Ordered3 r /\ Incl3 b r /\ (forall i, In i l -> covers3 r i) /\
  (forall c, Incl3 b c -> (forall i, In i l -> covers3 c i) -> Incl3 r c).
Proof.
  induction 1 as [|i l Hi Hl IH]; intros b Hb; cbn [fold_left].
  - split; [auto|split; [|split]]. + intros p; exact (fun x => x). + intros i []. + intros c H _; exact H.
  - assert (W : Ordered3 (grow3 b i) /\ Incl3 b (grow3 b i) /\ covers3 (grow3 b i) i /\ forall c, Incl3 b c -> covers3 c i -> Incl3 (grow3 b i) c).
    { destruct i as [p|a]; cbn [item_ok3 grow3 covers3] in *; (split; [|split; [|split]]).
      - now apply bb3_union_point_ordered. - now apply bb3_union_point_l. - now apply bb3_union_point_in. - intros c; now apply bb3_union_point_least.
      - now apply bb3_union_ordered. - now apply bb3_union_l. - now apply bb3_union_r. - intros c; now apply bb3_union_least. }
    destruct W as (W1 & W2 & W3 & W4). destruct (IH _ W1) as (R1 & R2 & R3 & R4). cbv zeta in *. split; [auto|split; [|split]].
    + intros p Hp. apply R2, W2, Hp.
    + intros j [<-|Hj]; [|now apply R3]. destruct i; cbn [covers3] in *; [now apply R2 | intros p Hp; now apply R2, W3].
    + intros c C1 C2. apply R4; [apply W4; [exact C1 | apply C2; now left] | intros j Hj; apply C2; now right].
Qed.
Lemma first3 (i : item3 S) : item_ok3 i -> Ordered3 (grow3 bb3_empty i) /\ covers3 (grow3 bb3_empty i) i /\ (forall c, covers3 c i -> Incl3 (grow3 bb3_empty i) c).
Proof.
  destruct i as [p|a]; cbn [item_ok3 grow3 covers3]; intros H.
  - destruct (bb3_first L p H) as [E W]. split; [exact W|]. assert (Wp : Ordered3 (mkBB3 p p)) by osolve L.
    pose proof (proj1 (BEq3_iff L _ _ W Wp) E) as Q. split; [apply Q; osolve L|]. intros c Hc q Hq. apply Q in Hq. osolve L.
  - pose proof (bb3_union_empty_l L a H) as E.
    assert (W : Ordered3 (bb3_union bb3_empty a)). { unfold BEq3, PEq3 in E. setoid_rewrite (Eqs_iff L) in E. revert E. generalize (bb3_union bb3_empty a). intros r E. osolve L. }
    pose proof (proj1 (BEq3_iff L _ _ W H) E) as Q. split; [exact W|]. split; [intros q Hq; now apply Q|]. intros c Hc q Hq. apply Hc. now apply Q.
Qed.
End HM3.
Lemma C61_history_is_smallest_box_2d_pf : forall (A : arith) (l : list (item2 (num A))), l <> [] -> Forall item_ok2 l ->
  let r := fold_left grow2 l bb2_empty in
  Ordered2 r /\ (forall i, In i l -> covers2 r i) /\ (forall c, (forall i, In i l -> covers2 c i) -> Incl2 r c).
Proof.
  intros A l Hn Hl. cbv zeta. set (L := num_OrdLaws A). destruct l as [|i l]; [congruence|]. inversion_clear Hl as [|? ? Hi Hl']. cbn [fold_left].
  destruct (first2 L i Hi) as (W1 & W2 & W3). destruct (hist_from2 L l Hl' _ W1) as (R1 & R2 & R3 & R4). cbv zeta in *. split; [auto|split].
  - intros j [<-|Hj]; [|now apply R3]. destruct i; cbn [covers2] in *; [now apply R2 | intros p Hp; now apply R2, W2].
  - intros c C. apply R4; [apply W3, C; now left | intros j Hj; apply C; now right].
Qed.
Lemma C61_history_is_smallest_box_3d_pf : forall (A : arith) (l : list (item3 (num A))), l <> [] -> Forall item_ok3 l ->
  let r := fold_left grow3 l bb3_empty in
  Ordered3 r /\ (forall i, In i l -> covers3 r i) /\ (forall c, (forall i, In i l -> covers3 c i) -> Incl3 r c).
Proof.
  intros A l Hn Hl. cbv zeta. set (L := num_OrdLaws A). destruct l as [|i l]; [congruence|]. inversion_clear Hl as [|? ? Hi Hl']. cbn [fold_left].
  destruct (first3 L i Hi) as (W1 & W2 & W3). destruct (hist_from3 L l Hl' _ W1) as (R1 & R2 & R3 & R4). cbv zeta in *. split; [auto|split].
  - intros j [<-|Hj]; [|now apply R3]. destruct i; cbn [covers3] in *; [now apply R2 | intros p Hp; now apply R2, W2].
  - intros c C. apply R4; [apply W3, C; now left | intros j Hj; apply C; now right].
Qed.
Lemma C61_history_order_irrelevant_2d_pf : forall (A : arith) (l l' : list (item2 (num A))), l <> [] -> Forall item_ok2 l -> (forall i, In i l <-> In i l') ->
  BEq2 (fold_left grow2 l bb2_empty) (fold_left grow2 l' bb2_empty).
Proof.
  intros A l l' Hn Hl E. set (L := num_OrdLaws A).
  assert (Hn' : l' <> []) by (intros ->; destruct l as [|i l]; [congruence|]; apply (E i); now left).
  assert (Hl' : Forall item_ok2 l') by (rewrite Forall_forall in *; intros i Hi; apply Hl, E, Hi).
  destruct (C61_history_is_smallest_box_2d_pf A l Hn Hl) as (R1 & R2 & R3). destruct (C61_history_is_smallest_box_2d_pf A l' Hn' Hl') as (Q1 & Q2 & Q3). cbv zeta in *.
  apply (Incl2_antisym L); auto; [apply R3; intros i Hi; apply Q2, E, Hi | apply Q3; intros i Hi; apply R2, E, Hi].
Qed.
Lemma C61_history_order_irrelevant_3d_pf : forall (A : arith) (l l' : list (item3 (num A))), l <> [] -> Forall item_ok3 l -> (forall i, In i l <-> In i l') ->
  BEq3 (fold_left grow3 l bb3_empty) (fold_left grow3 l' bb3_empty).
Proof.
  intros A l l' Hn Hl E. set (L := num_OrdLaws A).
  assert (Hn' : l' <> []) by (intros ->; destruct l as [|i l]; [congruence|]; apply (E i); now left).
  assert (Hl' : Forall item_ok3 l') by (rewrite Forall_forall in *; intros i Hi; apply Hl, E, Hi).
  destruct (C61_history_is_smallest_box_3d_pf A l Hn Hl) as (R1 & R2 & R3). destruct (C61_history_is_smallest_box_3d_pf A l' Hn' Hl') as (Q1 & Q2 & Q3). cbv zeta in *.
  apply (Incl3_antisym L); auto; [apply R3; intros i Hi; apply Q2, E, Hi | apply Q3; intros i Hi; apply R2, E, Hi].
Qed.
Section LT2.
Context {S : Type} {O : ScalarOps S} (L : OrdLaws O).
Lemma int_some2 (a b : BoundingBox2 S) p : Ordered2 a -> Ordered2 b -> In2 p a -> In2 p b ->
  exists c, bb2_intersect a b = Some c /\ Ordered2 c /\ (forall q, In2 q c <-> In2 q a /\ In2 q b).
Proof.
  intros Ha Hb H1 H2. destruct (bb2_intersect a b) as [c|] eqn:E.
  - exists c. split; [reflexivity|]. destruct (bb2_intersect_some L _ _ _ Ha Hb E) as [W1 W2]; split; [exact W1 | exact W2].
  - exfalso. apply (bb2_intersect_none L _ _ Ha Hb) in E. apply E. exists p. split; assumption.
Qed.
Lemma set_eq2 (a b : BoundingBox2 S) : Ordered2 a -> Ordered2 b -> (forall q, In2 q a <-> In2 q b) -> BEq2 a b.
Proof. intros Ha Hb E. now apply (BEq2_iff L). Qed.
Lemma oeq_sets2 (x y : option (BoundingBox2 S)) :
  (forall c, x = Some c -> Ordered2 c) -> (forall c, y = Some c -> Ordered2 c) ->
  (forall q, (exists c, x = Some c /\ In2 q c) <-> (exists c, y = Some c /\ In2 q c)) -> OEq2 x y.
Proof.
  intros Hx Hy E. destruct x as [a|], y as [b|]; cbn [OEq2]; auto.
  - apply set_eq2; auto. intros q. specialize (E q). split; intros H.
    + destruct (proj1 E) as (c & C1 & C2); [exists a; auto|]. now inversion C1.
    + destruct (proj2 E) as (c & C1 & C2); [exists b; auto|]. now inversion C1.
  - destruct (E (bb2_min a)) as [E1 _]. destruct E1 as (c & C & _); [exists a; split; [reflexivity | apply (In2_min L); auto]|]. discriminate.
  - destruct (E (bb2_min b)) as [_ E1]. destruct E1 as (c & C & _); [exists b; split; [reflexivity | apply (In2_min L); auto]|]. discriminate.
Qed.
Lemma int_ord2 (a b c : BoundingBox2 S) : Ordered2 a -> Ordered2 b -> bb2_intersect a b = Some c -> Ordered2 c.
Proof. intros Ha Hb E. destruct (bb2_intersect_some L _ _ _ Ha Hb E) as [W _]; exact W. Qed.
Lemma int_set2 (a b : BoundingBox2 S) q : Ordered2 a -> Ordered2 b -> ((exists c, bb2_intersect a b = Some c /\ In2 q c) <-> In2 q a /\ In2 q b).
Proof.
  intros Ha Hb. split.
  - intros (c & E & H). destruct (bb2_intersect_some L _ _ _ Ha Hb E) as [_ W]; now apply W.
  - intros [H1 H2]. destruct (int_some2 a b q Ha Hb H1 H2) as (c & E & W & K). exists c. split; [exact E | now apply K].
Qed.
Definition obind_int2 (x : option (BoundingBox2 S)) (c : BoundingBox2 S) := match x with Some a => bb2_intersect a c | None => None end.
Lemma bind_set2 x c q : (forall a, x = Some a -> Ordered2 a) -> Ordered2 c ->
  ((exists r, match x with Some a => bb2_intersect a c | None => None end = Some r /\ In2 q r) <-> (exists a, x = Some a /\ In2 q a) /\ In2 q c).
Proof.
  intros Hx Hc. destruct x as [a|].
  - specialize (Hx a eq_refl). rewrite int_set2 by assumption. split; [intros [H1 H2]; split; [exists a; auto | exact H2] | intros [(a' & E & H1) H2]; inversion E; subst; auto].
  - split; [intros (r & E & _); discriminate | intros [(a & E & _) _]; discriminate].
Qed.
Lemma bind_set'2 x c q : (forall a, x = Some a -> Ordered2 a) -> Ordered2 c ->
  ((exists r, match x with Some a => bb2_intersect c a | None => None end = Some r /\ In2 q r) <-> In2 q c /\ (exists a, x = Some a /\ In2 q a)).
Proof.
  intros Hx Hc. destruct x as [a|].
  - specialize (Hx a eq_refl). rewrite int_set2 by assumption. split; [intros [H1 H2]; split; [exact H1 | exists a; auto] | intros [H2 (a' & E & H1)]; inversion E; subst; auto].
  - split; [intros (r & E & _); discriminate | intros [_ (a & E & _)]; discriminate].
Qed.
End LT2.
Section LT3.
Context {S : Type} {O : ScalarOps S} (L : OrdLaws O).
Lemma int_some3 (a b : BoundingBox3 S) p : Ordered3 a -> Ordered3 b -> In3 p a -> In3 p b ->
  exists c, bb3_intersect a b = Some c /\ Ordered3 c /\ (forall q, In3 q c <-> In3 q a /\ In3 q b).
Proof.
  intros Ha Hb H1 H2. destruct (bb3_intersect a b) as [c|] eqn:E.
  - exists c. split; [reflexivity|]. destruct (bb3_intersect_some L _ _ _ Ha Hb E) as [W1 W2]; split; [exact W1 | exact W2].
  - exfalso. apply (bb3_intersect_none L _ _ Ha Hb) in E. apply E. exists p. split; assumption.
Qed.
Lemma set_eq3 (a b : BoundingBox3 S) : Ordered3 a -> Ordered3 b -> (forall q, In3 q a <-> In3 q b) -> BEq3 a b.
Proof. intros Ha Hb E. now apply (BEq3_iff L). Qed.
Lemma oeq_sets3 (x y : option (BoundingBox3 S)) :
  (forall c, x = Some c -> Ordered3 c) -> (forall c, y = Some c -> Ordered3 c) ->
  (forall q, (exists c, x = Some c /\ In3 q c) <-> (exists c, y = Some c /\ In3 q c)) -> OEq3 x y.
Proof.
  intros Hx Hy E. destruct x as [a|], y as [b|]; cbn [OEq3]; auto.
  - apply set_eq3; auto. intros q. specialize (E q). split; intros H.
    + destruct (proj1 E) as (c & C1 & C2); [exists a; auto|]. now inversion C1.
    + destruct (proj2 E) as (c & C1 & C2); [exists b; auto|]. now inversion C1.
  - destruct (E (bb3_min a)) as [E1 _]. destruct E1 as (c & C & _); [exists a; split; [reflexivity | apply (In3_min L); auto]|]. discriminate.
  - destruct (E (bb3_min b)) as [_ E1]. destruct E1 as (c & C & _); [exists b; split; [reflexivity | apply (In3_min L); auto]|]. discriminate.
Qed.
Lemma int_ord3 (a b c : BoundingBox3 S) : Ordered3 a -> Ordered3 b -> bb3_intersect a b = Some c -> Ordered3 c.
Proof. intros Ha Hb E. destruct (bb3_intersect_some L _ _ _ Ha Hb E) as [W _]; exact W. Qed.
Lemma int_set3 (a b : BoundingBox3 S) q : Ordered3 a -> Ordered3 b -> ((exists c, bb3_intersect a b = Some c /\ In3 q c) <-> In3 q a /\ In3 q b).
Proof.
  intros Ha Hb. split.
  - intros (c & E & H). destruct (bb3_intersect_some L _ _ _ Ha Hb E) as [_ W]; now apply W.
  - intros [H1 H2]. destruct (int_some3 a b q Ha Hb H1 H2) as (c & E & W & K). exists c. split; [exact E | now apply K].
Qed.
Definition obind_int3 (x : option (BoundingBox3 S)) (c : BoundingBox3 S) := match x with Some a => bb3_intersect a c | None => None end.
Lemma bind_set3 x c q : (forall a, x = Some a -> Ordered3 a) -> Ordered3 c ->
  ((exists r, match x with Some a => bb3_intersect a c | None => None end = Some r /\ In3 q r) <-> (exists a, x = Some a /\ In3 q a) /\ In3 q c).
Proof.
  intros Hx Hc. destruct x as [a|].
  - specialize (Hx a eq_refl). rewrite int_set3 by assumption. split; [intros [H1 H2]; split; [exists a; auto | exact H2] | intros [(a' & E & H1) H2]; inversion E; subst; auto].
  - split; [intros (r & E & _); discriminate | intros [(a & E & _) _]; discriminate].
Qed.
Lemma bind_set'3 x c q : (forall a, x = Some a -> Ordered3 a) -> Ordered3 c ->
  ((exists r, match x with Some a => bb3_intersect c a | None => None end = Some r /\ In3 q r) <-> In3 q c /\ (exists a, x = Some a /\ In3 q a)).
Proof.
  intros Hx Hc. destruct x as [a|].
  - specialize (Hx a eq_refl). rewrite int_set3 by assumption. split; [intros [H1 H2]; split; [exact H1 | exists a; auto] | intros [H2 (a' & E & H1)]; inversion E; subst; auto].
  - split; [intros (r & E & _); discriminate | intros [_ (a & E & _)]; discriminate].
Qed.
End LT3.
Lemma C62_intersect_algebra_2d_pf : forall (A : arith) (a b c : BoundingBox2 (num A)), Ordered2 a -> Ordered2 b -> Ordered2 c ->
  OEq2 (bb2_intersect a b) (bb2_intersect b a) /\
  OEq2 (match bb2_intersect a b with Some ab => bb2_intersect ab c | None => None end) (match bb2_intersect b c with Some bc => bb2_intersect a bc | None => None end) /\
  OEq2 (bb2_intersect a a) (Some a) /\
  OEq2 (bb2_intersect a bb2_infinite) (Some a) /\ OEq2 (bb2_intersect bb2_infinite a) (Some a).
Proof.
  intros A a b c Ha Hb Hc. set (L := num_OrdLaws A). pose proof (bb2_infinite_ordered L) as Hi.
  assert (I : forall q, In2 q a -> In2 q bb2_infinite) by (exact (Incl2_infinite L a)).
  assert (S1 : forall x (c : BoundingBox2 (num A)), Some x = Some c -> Ordered2 x -> Ordered2 c) by congruence.
  assert (O1 : forall (a b c : BoundingBox2 (num A)), Ordered2 a -> Ordered2 b -> bb2_intersect a b = Some c -> Ordered2 c) by (intros u v w Hu Hv Ew; exact (int_ord2 L u v w Hu Hv Ew)).
  assert (O2 : forall (a b : BoundingBox2 (num A)), Ordered2 a -> Some a = Some b -> Ordered2 b) by (intros u v Hu Ev; inversion Ev; now subst).
  split; [|split; [|split; [|split]]]; apply (oeq_sets2 L).
  1-2: intros x E; eapply O1; [| |exact E]; assumption.
  { intros q. rewrite !(int_set2 L) by assumption. tauto. }
  { intros x E. destruct (bb2_intersect a b) as [ab|] eqn:E1; [|discriminate]. eapply O1; [eapply O1; [exact Ha | exact Hb | exact E1] | exact Hc | exact E]. }
  { intros x E. destruct (bb2_intersect b c) as [bc|] eqn:E1; [|discriminate]. eapply O1; [exact Ha | eapply O1; [exact Hb | exact Hc | exact E1] | exact E]. }
  { intros q. rewrite (bind_set2 L), (bind_set'2 L) by first [assumption | intros x E; eapply O1; [| |exact E]; assumption]. rewrite !(int_set2 L) by assumption. tauto. }
  1, 4, 7: intros x E; eapply O1; [| |exact E]; assumption.
  1, 3, 5: intros x E; eapply O2; [exact Ha | exact E].
  all: intros q; rewrite (int_set2 L) by assumption; split; [intros [H H']; exists a; auto | intros (x & E & H); inversion E; subst; split; auto].
Qed.
Lemma C62_intersect_algebra_3d_pf : forall (A : arith) (a b c : BoundingBox3 (num A)), Ordered3 a -> Ordered3 b -> Ordered3 c ->
  OEq3 (bb3_intersect a b) (bb3_intersect b a) /\
  OEq3 (match bb3_intersect a b with Some ab => bb3_intersect ab c | None => None end) (match bb3_intersect b c with Some bc => bb3_intersect a bc | None => None end) /\
  OEq3 (bb3_intersect a a) (Some a) /\
  OEq3 (bb3_intersect a bb3_infinite) (Some a) /\ OEq3 (bb3_intersect bb3_infinite a) (Some a).
Proof.
  intros A a b c Ha Hb Hc. set (L := num_OrdLaws A). pose proof (bb3_infinite_ordered L) as Hi.
  assert (I : forall q, In3 q a -> In3 q bb3_infinite) by (exact (Incl3_infinite L a)).
  assert (S1 : forall x (c : BoundingBox3 (num A)), Some x = Some c -> Ordered3 x -> Ordered3 c) by congruence.
  assert (O1 : forall (a b c : BoundingBox3 (num A)), Ordered3 a -> Ordered3 b -> bb3_intersect a b = Some c -> Ordered3 c) by (intros u v w Hu Hv Ew; exact (int_ord3 L u v w Hu Hv Ew)).
  assert (O2 : forall (a b : BoundingBox3 (num A)), Ordered3 a -> Some a = Some b -> Ordered3 b) by (intros u v Hu Ev; inversion Ev; now subst).
  split; [|split; [|split; [|split]]]; apply (oeq_sets3 L).
  1-2: intros x E; eapply O1; [| |exact E]; assumption.
  { intros q. rewrite !(int_set3 L) by assumption. tauto. }
  { intros x E. destruct (bb3_intersect a b) as [ab|] eqn:E1; [|discriminate]. eapply O1; [eapply O1; [exact Ha | exact Hb | exact E1] | exact Hc | exact E]. }
  { intros x E. destruct (bb3_intersect b c) as [bc|] eqn:E1; [|discriminate]. eapply O1; [exact Ha | eapply O1; [exact Hb | exact Hc | exact E1] | exact E]. }
  { intros q. rewrite (bind_set3 L), (bind_set'3 L) by first [assumption | intros x E; eapply O1; [| |exact E]; assumption]. rewrite !(int_set3 L) by assumption. tauto. }
  1, 4, 7: intros x E; eapply O1; [| |exact E]; assumption.
  1, 3, 5: intros x E; eapply O2; [exact Ha | exact E].
  all: intros q; rewrite (int_set3 L) by assumption; split; [intros [H H']; exists a; auto | intros (x & E & H); inversion E; subst; split; auto].
Qed.
Lemma C62_absorption_2d_pf : forall (A : arith) (a b : BoundingBox2 (num A)), Ordered2 a -> Ordered2 b ->
  OEq2 (bb2_intersect a (bb2_union a b)) (Some a) /\ (forall c, bb2_intersect a b = Some c -> BEq2 (bb2_union a c) a).
Proof.
  intros A a b Ha Hb. set (L := num_OrdLaws A). pose proof (bb2_union_ordered L a b Ha Hb) as Hu. split.
  - apply (oeq_sets2 L); [intros x E; eapply (int_ord2 L); [| |exact E]; assumption | congruence|].
    intros q. rewrite (int_set2 L) by assumption. split; [intros [H _]; exists a; auto | intros (x & E & H); inversion E; subst]. split; [assumption | now apply (bb2_union_l L x b Ha Hb)].
  - intros c E. destruct (bb2_intersect_some L _ _ _ Ha Hb E) as [Hc K]. apply (Incl2_antisym L); auto; [now apply bb2_union_ordered | | now apply bb2_union_l].
    apply bb2_union_least; auto; [intros q; auto | intros q Hq; now apply K].
Qed.
Lemma C62_absorption_3d_pf : forall (A : arith) (a b : BoundingBox3 (num A)), Ordered3 a -> Ordered3 b ->
  OEq3 (bb3_intersect a (bb3_union a b)) (Some a) /\ (forall c, bb3_intersect a b = Some c -> BEq3 (bb3_union a c) a).
Proof.
  intros A a b Ha Hb. set (L := num_OrdLaws A). pose proof (bb3_union_ordered L a b Ha Hb) as Hu. split.
  - apply (oeq_sets3 L); [intros x E; eapply (int_ord3 L); [| |exact E]; assumption | congruence|].
    intros q. rewrite (int_set3 L) by assumption. split; [intros [H _]; exists a; auto | intros (x & E & H); inversion E; subst]. split; [assumption | now apply (bb3_union_l L x b Ha Hb)].
  - intros c E. destruct (bb3_intersect_some L _ _ _ Ha Hb E) as [Hc K]. apply (Incl3_antisym L); auto; [now apply bb3_union_ordered | | now apply bb3_union_l].
    apply bb3_union_least; auto; [intros q; auto | intros q Hq; now apply K].
Qed.
Lemma C62_inclusion_2d_pf : forall (A : arith) (a b : BoundingBox2 (num A)), Ordered2 a -> Ordered2 b ->
  (Incl2 a b <-> OEq2 (bb2_intersect a b) (Some a)) /\ (Incl2 a b <-> BEq2 (bb2_union a b) b) /\
  (Incl2 a b <-> bb2_is_inside b (bb2_min a) = true /\ bb2_is_inside b (bb2_max a) = true).
Proof.
  intros A a b Ha Hb. set (L := num_OrdLaws A). pose proof (bb2_union_ordered L a b Ha Hb) as Hu. split; [|split]; split.
  - intros I. apply (oeq_sets2 L); [intros x E; eapply (int_ord2 L); [| |exact E]; assumption | congruence|].
    intros q. rewrite (int_set2 L) by assumption. split; [intros [H _]; exists a; auto | intros (x & E & H); inversion E; subst; auto].
  - destruct (bb2_intersect a b) as [c|] eqn:E; cbn [OEq2]; [|tauto]. intros K q Hq. destruct (bb2_intersect_some L _ _ _ Ha Hb E) as [Hc M].
    apply M. apply (proj1 (BEq2_iff L c a Hc Ha) K). exact Hq.
  - intros I. apply (Incl2_antisym L); auto; [apply bb2_union_least; auto; intros q; auto | now apply bb2_union_r].
  - intros E q Hq. apply (proj1 (BEq2_iff L _ _ Hu Hb) E). now apply (bb2_union_l L a b Ha Hb).
  - intros I. rewrite !bb2_is_inside_iff. split; apply I; [now apply In2_min | now apply In2_max].
  - rewrite !bb2_is_inside_iff. intros [H1 H2]. apply (Incl2_iff L a b Ha). osolve L.
Qed.
Lemma C62_inclusion_3d_pf : forall (A : arith) (a b : BoundingBox3 (num A)), Ordered3 a -> Ordered3 b ->
  (Incl3 a b <-> OEq3 (bb3_intersect a b) (Some a)) /\ (Incl3 a b <-> BEq3 (bb3_union a b) b) /\
  (Incl3 a b <-> bb3_is_inside b (bb3_min a) = true /\ bb3_is_inside b (bb3_max a) = true).
Proof.
  intros A a b Ha Hb. set (L := num_OrdLaws A). pose proof (bb3_union_ordered L a b Ha Hb) as Hu. split; [|split]; split.
  - intros I. apply (oeq_sets3 L); [intros x E; eapply (int_ord3 L); [| |exact E]; assumption | congruence|].
    intros q. rewrite (int_set3 L) by assumption. split; [intros [H _]; exists a; auto | intros (x & E & H); inversion E; subst; auto].
  - destruct (bb3_intersect a b) as [c|] eqn:E; cbn [OEq3]; [|tauto]. intros K q Hq. destruct (bb3_intersect_some L _ _ _ Ha Hb E) as [Hc M].
    apply M. apply (proj1 (BEq3_iff L c a Hc Ha) K). exact Hq.
  - intros I. apply (Incl3_antisym L); auto; [apply bb3_union_least; auto; intros q; auto | now apply bb3_union_r].
  - intros E q Hq. apply (proj1 (BEq3_iff L _ _ Hu Hb) E). now apply (bb3_union_l L a b Ha Hb).
  - intros I. rewrite !bb3_is_inside_iff. split; apply I; [now apply In3_min | now apply In3_max].
  - rewrite !bb3_is_inside_iff. intros [H1 H2]. apply (Incl3_iff L a b Ha). osolve L.
Qed.
Lemma C63_hull_of_corners_2d_pf : forall (A : arith) (prof : profile) (b : BoundingBox2 (num A)), Ordered2 b ->
  exists c, map (bb2_corner prof b) [0; 1; 2; 3]%N = map Ret c /\ BEq2 (fold_left bb2_union_point c bb2_empty) b.
Proof.
  intros A prof b Hb. set (L := num_OrdLaws A). destruct b as [[x y] [x' y']].
  exists [mkPoint2 x y; mkPoint2 x' y; mkPoint2 x y'; mkPoint2 x' y']. split.
  { unfold bb2_corner, debug_assert. cbn. rewrite !andb_false_r. reflexivity. }
  pose proof (Hb D2X) as H1. pose proof (Hb D2Y) as H2. cbn in H1, H2. destruct (Le_nan L _ _ H1), (Le_nan L _ _ H2).
  match goal with |- BEq2 (fold_left _ ?l _) _ => destruct (bb2_accumulate L l) as (R1 & R2 & R3 & _) end.
  { discriminate. } { intros p [<-|[<-|[<-|[<-|[]]]]]; intros []; assumption. }
  cbv zeta in *. apply (Incl2_antisym L); auto.
  - apply R3. intros p [<-|[<-|[<-|[<-|[]]]]]; osolve L.
  - apply (Incl2_iff L _ _ Hb). split; [eapply proj1, (R2 (mkPoint2 x y)) | eapply proj2, (R2 (mkPoint2 x' y'))]; cbn; auto 10.
Qed.
Lemma C63_hull_of_corners_3d_pf : forall (A : arith) (prof : profile) (b : BoundingBox3 (num A)), Ordered3 b ->
  exists c, map (bb3_corner prof b) [0; 1; 2; 3; 4; 5; 6; 7]%N = map Ret c /\ BEq3 (fold_left bb3_union_point c bb3_empty) b.
Proof.
  intros A prof b Hb. set (L := num_OrdLaws A). destruct b as [[x y z] [x' y' z']].
  exists [mkPoint3 x y z; mkPoint3 x' y z; mkPoint3 x y' z; mkPoint3 x' y' z; mkPoint3 x y z'; mkPoint3 x' y z'; mkPoint3 x y' z'; mkPoint3 x' y' z']. split.
  { unfold bb3_corner, debug_assert. cbn. rewrite !andb_false_r. reflexivity. }
  pose proof (Hb D3X) as H1. pose proof (Hb D3Y) as H2. pose proof (Hb D3Z) as H3. cbn in H1, H2, H3. destruct (Le_nan L _ _ H1), (Le_nan L _ _ H2), (Le_nan L _ _ H3).
  match goal with |- BEq3 (fold_left _ ?l _) _ => destruct (bb3_accumulate L l) as (R1 & R2 & R3 & _) end.
  { discriminate. } { intros p [<-|[<-|[<-|[<-|[<-|[<-|[<-|[<-|[]]]]]]]]]; intros []; assumption. }
  cbv zeta in *. apply (Incl3_antisym L); auto.
  - apply R3. intros p [<-|[<-|[<-|[<-|[<-|[<-|[<-|[<-|[]]]]]]]]]; split; intros []; first [assumption | now apply (Le_refl L)].
  - apply (Incl3_iff L _ _ Hb). split; [eapply proj1, (R2 (mkPoint3 x y z)) | eapply proj2, (R2 (mkPoint3 x' y' z'))]; cbn; auto 12.
Qed.
