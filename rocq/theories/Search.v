(** Proofs: searching a list with the free functions closest / farthest / shortest / longest / min / max. *)
From Coq Require Import Bool NArith ZArith List Lia.
From Verif Require Import Scalar Types Vector2 Vector3 Point2 Point3 Ray BoundingBox2 BoundingBox3 OrdLaws Arith SpecOrder SpecFloat OrderProofs FloatLaws FloatGeom Api.
Import ListNotations.
Section Sel.
Context {S : Type} {O : ScalarOps S} (L : OrdLaws O) {T : Type} (k : T -> S).
(* keep the accumulator when its key is strictly less / strictly greater, else take the new one *)
Definition lo_sel (a b : T) : T := if slt (k a) (k b) then a else b.
Definition hi_sel (a b : T) : T := if slt (k b) (k a) then a else b.
Lemma lo_fold l : forall p0, (forall p, In p (p0 :: l) -> NoNaN (k p)) ->
  let r := fold_left lo_sel l p0 in In r (p0 :: l) /\ forall p, In p (p0 :: l) -> Le (k r) (k p).
Proof.
  induction l as [|q l IH]; intros p0 N; cbn [fold_left].
  - split; [now left|]. intros p [<-|[]]. apply (Le_refl L). apply N. now left.
  - assert (N0 : NoNaN (k p0)) by (apply N; now left). assert (Nq : NoNaN (k q)) by (apply N; right; now left).
    unfold lo_sel at 2. unfold lo_sel at 3. destruct (slt (k p0) (k q)) eqn:E.
    + destruct (IH p0) as [I K]; [intros p [<-|Hp]; [assumption | apply N; right; now right]|]. cbv zeta in *. split; [destruct I as [I|I]; [now left | right; now right]|].
      intros p [<-|[<-|Hp]]; [apply K; now left | | apply K; now right].
      apply (Le_trans L _ (k p0)); [apply K; now left | now apply (Lt_Le L)].
    + destruct (IH q) as [I K]; [intros p Hp; apply N; now right|]. cbv zeta in *. split; [right; exact I|].
      intros p [<-|Hp]; [|now apply K]. apply (Le_trans L _ (k q)); [apply K; now left | now apply (not_Lt_Le L)].
Qed.
Lemma hi_fold l : forall p0, (forall p, In p (p0 :: l) -> NoNaN (k p)) ->
  let r := fold_left hi_sel l p0 in In r (p0 :: l) /\ forall p, In p (p0 :: l) -> Le (k p) (k r).
Proof.
  induction l as [|q l IH]; intros p0 N; cbn [fold_left].
  - split; [now left|]. intros p [<-|[]]. apply (Le_refl L). apply N. now left.
  - assert (N0 : NoNaN (k p0)) by (apply N; now left). assert (Nq : NoNaN (k q)) by (apply N; right; now left).
    unfold hi_sel at 2. unfold hi_sel at 3. destruct (slt (k q) (k p0)) eqn:E.
    + destruct (IH p0) as [I K]; [intros p [<-|Hp]; [assumption | apply N; right; now right]|]. cbv zeta in *. split; [destruct I as [I|I]; [now left | right; now right]|].
      intros p [<-|[<-|Hp]]; [apply K; now left | | apply K; now right].
      apply (Le_trans L _ (k p0)); [now apply (Lt_Le L) | apply K; now left].
    + destruct (IH q) as [I K]; [intros p Hp; apply N; now right|]. cbv zeta in *. split; [right; exact I|].
      intros p [<-|Hp]; [|now apply K]. apply (Le_trans L _ (k q)); [now apply (not_Lt_Le L) | apply K; now left].
Qed.
Lemma sel_nan a n : ~ NoNaN (k n) -> lo_sel a n = n /\ hi_sel a n = n.
Proof.
  intros N. unfold lo_sel, hi_sel. destruct (slt (k a) (k n)) eqn:E1, (slt (k n) (k a)) eqn:E2; auto; exfalso; apply N;
   (apply (Lt_iff L) in E1 || apply (Lt_iff L) in E2); tauto.
Qed.
Lemma sel_nan1 n b : ~ NoNaN (k n) -> lo_sel n b = b /\ hi_sel n b = b.
Proof.
  intros N. unfold lo_sel, hi_sel. destruct (slt (k n) (k b)) eqn:E1, (slt (k b) (k n)) eqn:E2; auto; exfalso; apply N;
   (apply (Lt_iff L) in E1 || apply (Lt_iff L) in E2); tauto.
Qed.
Lemma lo_forget l1 n q l2 p0 : ~ NoNaN (k n) ->
  fold_left lo_sel (l1 ++ n :: q :: l2) p0 = fold_left lo_sel l2 q /\ fold_left lo_sel (l1 ++ [n]) p0 = n.
Proof.
  intros N. rewrite !fold_left_app. cbn [fold_left]. destruct (sel_nan (fold_left lo_sel l1 p0) n N) as [-> _]. destruct (sel_nan1 n q N) as [-> _]. auto.
Qed.
Lemma hi_forget l1 n q l2 p0 : ~ NoNaN (k n) ->
  fold_left hi_sel (l1 ++ n :: q :: l2) p0 = fold_left hi_sel l2 q /\ fold_left hi_sel (l1 ++ [n]) p0 = n.
Proof.
  intros N. rewrite !fold_left_app. cbn [fold_left]. destruct (sel_nan (fold_left hi_sel l1 p0) n N) as [_ ->]. destruct (sel_nan1 n q N) as [_ ->]. auto.
Qed.
Lemma Le_not_lt x y : Le x y -> slt y x = false.
Proof. intros H. destruct (slt y x) eqn:E; [|reflexivity]. apply (Lt_iff L) in E. tauto. Qed.
(* one dimension of a fold of min / max: NaN operands are ignored *)
Lemma min_fold (l : list S) : forall x0, let r := fold_left s_min l x0 in
  ((forall x, In x (x0 :: l) -> ~ NoNaN x) -> ~ NoNaN r) /\
  (forall x, In x (x0 :: l) -> NoNaN x -> Le r x) /\ (NoNaN r -> exists x, In x (x0 :: l) /\ Eqs r x).
Proof.
  induction l as [|y l IH]; intros x0; cbn [fold_left].
  - split; [|split].
    + intros H. apply H. now left.
    + intros x [<-|[]] N. now apply (Le_refl L).
    + intros N. exists x0. split; [now left | now apply (Eqs_refl L)].
  - destruct (IH (s_min x0 y)) as (A & B & C). cbv zeta in *. unfold s_min in A, B, C |- *. cbn [fold_left].
    assert (SEL : sfmin x0 y = x0 \/ sfmin x0 y = y) by apply (ol_min_sel _ L).
    split; [|split].
    + intros H. apply A. intros x [<-|Hx]; [destruct SEL as [-> | ->]; apply H; [now left | right; now left] | apply H; right; now right].
    + assert (B0 : forall x, Le (sfmin x0 y) x -> Le (fold_left sfmin l (sfmin x0 y)) x).
      { intros x Hx. apply (Le_trans L _ (sfmin x0 y)); [apply B; [now left | apply (Le_nan1 L _ _ Hx)] | exact Hx]. }
      intros x [<-|[<-|Hx]] N; [| |apply B; [now right | exact N]]; apply B0.
      * destruct (snan y) eqn:Ny; [rewrite (ol_min_nan2 _ L) by assumption; now apply (Le_refl L) | now apply (ol_min_le _ L)].
      * destruct (snan x0) eqn:N0; [rewrite (ol_min_nan1 _ L) by assumption; now apply (Le_refl L) | now apply (ol_min_le _ L)].
    + intros N. destruct (C N) as (x & [<-|Hx] & E).
      * destruct SEL as [H|H]; rewrite H in *; eexists; (split; [|exact E]); [now left | right; now left].
      * exists x. split; [right; now right | exact E].
Qed.
Lemma max_fold (l : list S) : forall x0, let r := fold_left s_max l x0 in
  ((forall x, In x (x0 :: l) -> ~ NoNaN x) -> ~ NoNaN r) /\
  (forall x, In x (x0 :: l) -> NoNaN x -> Le x r) /\ (NoNaN r -> exists x, In x (x0 :: l) /\ Eqs r x).
Proof.
  induction l as [|y l IH]; intros x0; cbn [fold_left].
  - split; [|split].
    + intros H. apply H. now left.
    + intros x [<-|[]] N. now apply (Le_refl L).
    + intros N. exists x0. split; [now left | now apply (Eqs_refl L)].
  - destruct (IH (s_max x0 y)) as (A & B & C). cbv zeta in *. unfold s_max in A, B, C |- *. cbn [fold_left].
    assert (SEL : sfmax x0 y = x0 \/ sfmax x0 y = y) by apply (ol_max_sel _ L).
    split; [|split].
    + intros H. apply A. intros x [<-|Hx]; [destruct SEL as [-> | ->]; apply H; [now left | right; now left] | apply H; right; now right].
    + assert (B0 : forall x, Le x (sfmax x0 y) -> Le x (fold_left sfmax l (sfmax x0 y))).
      { intros x Hx. apply (Le_trans L _ (sfmax x0 y)); [exact Hx | apply B; [now left | apply (Le_nan2 L _ _ Hx)]]. }
      intros x [<-|[<-|Hx]] N; [| |apply B; [now right | exact N]]; apply B0.
      * destruct (snan y) eqn:Ny; [rewrite (ol_max_nan2 _ L) by assumption; now apply (Le_refl L) | now apply (ol_max_le _ L)].
      * destruct (snan x0) eqn:N0; [rewrite (ol_max_nan1 _ L) by assumption; now apply (Le_refl L) | now apply (ol_max_le _ L)].
    + intros N. destruct (C N) as (x & [<-|Hx] & E).
      * destruct SEL as [H|H]; rewrite H in *; eexists; (split; [|exact E]); [now left | right; now left].
      * exists x. split; [right; now right | exact E].
Qed.
Lemma fold_map {X Y : Type} (g : X -> Y) (fx : X -> X -> X) (fy : Y -> Y -> Y) (H : forall a b, g (fx a b) = fy (g a) (g b)) (l : list X) : forall x, g (fold_left fx l x) = fold_left fy (map g l) (g x).
Proof. induction l as [|y l IH]; intros x; [reflexivity|]. cbn [fold_left map]. now rewrite IH, H. Qed.
End Sel.
Lemma nearest_key2 {A : arith} (v p : Point2 (num A)) : NoNaN (p2_distance v p) -> NoNaN (v2_dot (p2_sub p v) (p2_sub p v)).
Proof. apply sqrt_NoNaN_inv. apply dot2_self_NotNeg. Qed.
Lemma length_key2 {A : arith} (v : Vector2 (num A)) : NoNaN (v2_length v) -> NoNaN (v2_dot v v).
Proof. apply sqrt_NoNaN_inv. apply dot2_self_NotNeg. Qed.
Lemma nearest_key_nan2 {A : arith} (v p : Point2 (num A)) : ~ NoNaN (p2_distance v p) -> ~ NoNaN (v2_dot (p2_sub p v) (p2_sub p v)).
Proof. intros H K. apply H. apply sqrt_NoNaN. now apply dot2_self_Le. Qed.
Lemma length_key_nan2 {A : arith} (v : Vector2 (num A)) : ~ NoNaN (v2_length v) -> ~ NoNaN (v2_dot v v).
Proof. intros H K. apply H. apply sqrt_NoNaN. now apply dot2_self_Le. Qed.
Lemma nearest_key3 {A : arith} (v p : Point3 (num A)) : NoNaN (p3_distance v p) -> NoNaN (v3_dot (p3_sub p v) (p3_sub p v)).
Proof. apply sqrt_NoNaN_inv. apply dot3_self_NotNeg. Qed.
Lemma length_key3 {A : arith} (v : Vector3 (num A)) : NoNaN (v3_length v) -> NoNaN (v3_dot v v).
Proof. apply sqrt_NoNaN_inv. apply dot3_self_NotNeg. Qed.
Lemma nearest_key_nan3 {A : arith} (v p : Point3 (num A)) : ~ NoNaN (p3_distance v p) -> ~ NoNaN (v3_dot (p3_sub p v) (p3_sub p v)).
Proof. intros H K. apply H. apply sqrt_NoNaN. now apply dot3_self_Le. Qed.
Lemma length_key_nan3 {A : arith} (v : Vector3 (num A)) : ~ NoNaN (v3_length v) -> ~ NoNaN (v3_dot v v).
Proof. intros H K. apply H. apply sqrt_NoNaN. now apply dot3_self_Le. Qed.
Lemma C64_nearest_2d_pf : forall (A : arith) (v p0 : Point2 (num A)) (l : list (Point2 (num A))), (forall p, In p (p0 :: l) -> NoNaN (api_distance v p)) ->
  let c := fold_left (api_closest v) l p0 in let f := fold_left (api_farthest v) l p0 in
  (In c (p0 :: l) /\ forall p, In p (p0 :: l) -> Le (api_distance v c) (api_distance v p) /\ tr_is_closer_to v p c = false) /\
  (In f (p0 :: l) /\ forall p, In p (p0 :: l) -> Le (api_distance v p) (api_distance v f) /\ tr_is_farther_from v p f = false).
Proof.
  intros A v p0 l N. set (L := num_OrdLaws A). set (k := fun p => v2_dot (p2_sub p v) (p2_sub p v)).
  assert (N' : forall p, In p (p0 :: l) -> NoNaN (k p)) by (intros p Hp; apply nearest_key2; exact (N p Hp)).
  destruct (lo_fold L k l p0 N') as [I1 K1]. destruct (hi_fold L k l p0 N') as [I2 K2]. cbv zeta in *.
  split; (split; [assumption|]); intros p Hp; split.
  - apply sqrt_mono; [apply dot2_self_Le; apply (N' _ I1) | apply (K1 _ Hp)].
  - apply (Le_not_lt L). exact (K1 _ Hp).
  - apply sqrt_mono; [apply dot2_self_Le; apply (N' _ Hp) | apply (K2 _ Hp)].
  - apply (Le_not_lt L). exact (K2 _ Hp).
Qed.
Lemma C64_nearest_3d_pf : forall (A : arith) (v p0 : Point3 (num A)) (l : list (Point3 (num A))), (forall p, In p (p0 :: l) -> NoNaN (api_distance v p)) ->
  let c := fold_left (api_closest v) l p0 in let f := fold_left (api_farthest v) l p0 in
  (In c (p0 :: l) /\ forall p, In p (p0 :: l) -> Le (api_distance v c) (api_distance v p) /\ tr_is_closer_to v p c = false) /\
  (In f (p0 :: l) /\ forall p, In p (p0 :: l) -> Le (api_distance v p) (api_distance v f) /\ tr_is_farther_from v p f = false).
Proof.
  intros A v p0 l N. set (L := num_OrdLaws A). set (k := fun p => v3_dot (p3_sub p v) (p3_sub p v)).
  assert (N' : forall p, In p (p0 :: l) -> NoNaN (k p)) by (intros p Hp; apply nearest_key3; exact (N p Hp)).
  destruct (lo_fold L k l p0 N') as [I1 K1]. destruct (hi_fold L k l p0 N') as [I2 K2]. cbv zeta in *.
  split; (split; [assumption|]); intros p Hp; split.
  - apply sqrt_mono; [apply dot3_self_Le; apply (N' _ I1) | apply (K1 _ Hp)].
  - apply (Le_not_lt L). exact (K1 _ Hp).
  - apply sqrt_mono; [apply dot3_self_Le; apply (N' _ Hp) | apply (K2 _ Hp)].
  - apply (Le_not_lt L). exact (K2 _ Hp).
Qed.
Lemma C64_nan_candidate_forgets_2d_pf : forall (A : arith) (v p0 n q : Point2 (num A)) (l1 l2 : list (Point2 (num A))), ~ NoNaN (api_distance v n) ->
  fold_left (api_closest v) (l1 ++ n :: q :: l2) p0 = fold_left (api_closest v) l2 q /\ fold_left (api_closest v) (l1 ++ [n]) p0 = n /\
  fold_left (api_farthest v) (l1 ++ n :: q :: l2) p0 = fold_left (api_farthest v) l2 q /\ fold_left (api_farthest v) (l1 ++ [n]) p0 = n.
Proof.
  intros A v p0 n q l1 l2 N. set (L := num_OrdLaws A). set (k := fun p => v2_dot (p2_sub p v) (p2_sub p v)). apply nearest_key_nan2 in N.
  destruct (lo_forget L k l1 n q l2 p0 N) as [E1 E2]. destruct (hi_forget L k l1 n q l2 p0 N) as [E3 E4].
  split; [exact E1 | split; [exact E2 | split; [exact E3 | exact E4]]].
Qed.
Lemma C64_nan_candidate_forgets_3d_pf : forall (A : arith) (v p0 n q : Point3 (num A)) (l1 l2 : list (Point3 (num A))), ~ NoNaN (api_distance v n) ->
  fold_left (api_closest v) (l1 ++ n :: q :: l2) p0 = fold_left (api_closest v) l2 q /\ fold_left (api_closest v) (l1 ++ [n]) p0 = n /\
  fold_left (api_farthest v) (l1 ++ n :: q :: l2) p0 = fold_left (api_farthest v) l2 q /\ fold_left (api_farthest v) (l1 ++ [n]) p0 = n.
Proof.
  intros A v p0 n q l1 l2 N. set (L := num_OrdLaws A). set (k := fun p => v3_dot (p3_sub p v) (p3_sub p v)). apply nearest_key_nan3 in N.
  destruct (lo_forget L k l1 n q l2 p0 N) as [E1 E2]. destruct (hi_forget L k l1 n q l2 p0 N) as [E3 E4].
  split; [exact E1 | split; [exact E2 | split; [exact E3 | exact E4]]].
Qed.
Lemma C64_shortest_2d_pf : forall (A : arith) (v0 : Vector2 (num A)) (l : list (Vector2 (num A))), (forall v, In v (v0 :: l) -> NoNaN (api_length v)) ->
  let c := fold_left api_shortest l v0 in let f := fold_left api_longest l v0 in
  (In c (v0 :: l) /\ forall v, In v (v0 :: l) -> Le (api_length c) (api_length v) /\ tr_is_shorter_than v c = false) /\
  (In f (v0 :: l) /\ forall v, In v (v0 :: l) -> Le (api_length v) (api_length f) /\ tr_is_longer_than v f = false).
Proof.
  intros A v0 l N. set (L := num_OrdLaws A). set (k := fun v : Vector2 (num A) => v2_dot v v).
  assert (N' : forall p, In p (v0 :: l) -> NoNaN (k p)) by (intros p Hp; apply length_key2; exact (N p Hp)).
  destruct (lo_fold L k l v0 N') as [I1 K1]. destruct (hi_fold L k l v0 N') as [I2 K2]. cbv zeta in *.
  split; (split; [assumption|]); intros p Hp; split.
  - apply sqrt_mono; [apply dot2_self_Le; apply (N' _ I1) | apply (K1 _ Hp)].
  - apply (Le_not_lt L). exact (K1 _ Hp).
  - apply sqrt_mono; [apply dot2_self_Le; apply (N' _ Hp) | apply (K2 _ Hp)].
  - apply (Le_not_lt L). exact (K2 _ Hp).
Qed.
Lemma C64_shortest_3d_pf : forall (A : arith) (v0 : Vector3 (num A)) (l : list (Vector3 (num A))), (forall v, In v (v0 :: l) -> NoNaN (api_length v)) ->
  let c := fold_left api_shortest l v0 in let f := fold_left api_longest l v0 in
  (In c (v0 :: l) /\ forall v, In v (v0 :: l) -> Le (api_length c) (api_length v) /\ tr_is_shorter_than v c = false) /\
  (In f (v0 :: l) /\ forall v, In v (v0 :: l) -> Le (api_length v) (api_length f) /\ tr_is_longer_than v f = false).
Proof.
  intros A v0 l N. set (L := num_OrdLaws A). set (k := fun v : Vector3 (num A) => v3_dot v v).
  assert (N' : forall p, In p (v0 :: l) -> NoNaN (k p)) by (intros p Hp; apply length_key3; exact (N p Hp)).
  destruct (lo_fold L k l v0 N') as [I1 K1]. destruct (hi_fold L k l v0 N') as [I2 K2]. cbv zeta in *.
  split; (split; [assumption|]); intros p Hp; split.
  - apply sqrt_mono; [apply dot3_self_Le; apply (N' _ I1) | apply (K1 _ Hp)].
  - apply (Le_not_lt L). exact (K1 _ Hp).
  - apply sqrt_mono; [apply dot3_self_Le; apply (N' _ Hp) | apply (K2 _ Hp)].
  - apply (Le_not_lt L). exact (K2 _ Hp).
Qed.
Lemma C64_nearest_scalar_pf : forall (A : arith) (v p0 : num A) (l : list (num A)), (forall p, In p (p0 :: l) -> NoNaN (api_distance v p)) ->
  let c := fold_left (api_closest v) l p0 in let f := fold_left (api_farthest v) l p0 in
  (In c (p0 :: l) /\ forall p, In p (p0 :: l) -> Le (api_distance v c) (api_distance v p) /\ tr_is_closer_to v p c = false) /\
  (In f (p0 :: l) /\ forall p, In p (p0 :: l) -> Le (api_distance v p) (api_distance v f) /\ tr_is_farther_from v p f = false).
Proof.
  intros A v p0 l N. set (L := num_OrdLaws A). set (k := fun p => s_distance v p).
  destruct (lo_fold L k l p0 N) as [I1 K1]. destruct (hi_fold L k l p0 N) as [I2 K2]. cbv zeta in *.
  split; (split; [assumption|]); intros p Hp; split.
  - exact (K1 _ Hp).
  - apply (Le_not_lt L). exact (K1 _ Hp).
  - exact (K2 _ Hp).
  - apply (Le_not_lt L). exact (K2 _ Hp).
Qed.
Lemma C64_shortest_scalar_pf : forall (A : arith) (v0 : num A) (l : list (num A)), (forall v, In v (v0 :: l) -> NoNaN v) ->
  let c := fold_left api_shortest l v0 in let f := fold_left api_longest l v0 in
  (In c (v0 :: l) /\ forall v, In v (v0 :: l) -> Le (api_length c) (api_length v) /\ tr_is_shorter_than v c = false) /\
  (In f (v0 :: l) /\ forall v, In v (v0 :: l) -> Le (api_length v) (api_length f) /\ tr_is_longer_than v f = false).
Proof.
  intros A v0 l N. set (L := num_OrdLaws A). set (k := fun p : num A => s_length p).
  assert (N' : forall p, In p (v0 :: l) -> NoNaN (k p)) by (intros p Hp; apply (ol_abs_nan _ L); exact (N p Hp)).
  destruct (lo_fold L k l v0 N') as [I1 K1]. destruct (hi_fold L k l v0 N') as [I2 K2]. cbv zeta in *.
  split; (split; [assumption|]); intros p Hp; split.
  - exact (K1 _ Hp).
  - apply (Le_not_lt L). exact (K1 _ Hp).
  - exact (K2 _ Hp).
  - apply (Le_not_lt L). exact (K2 _ Hp).
Qed.
Lemma C65_min_max_of_points_2d_pf : forall (A : arith) (p0 : Point2 (num A)) (l : list (Point2 (num A))) (d : Dimension2),
  let lo := coord2 (fold_left api_min l p0) d in let hi := coord2 (fold_left api_max l p0) d in
  ((forall p, In p (p0 :: l) -> ~ NoNaN (coord2 p d)) -> ~ NoNaN lo /\ ~ NoNaN hi) /\
  (forall p, In p (p0 :: l) -> NoNaN (coord2 p d) -> Le lo (coord2 p d) /\ Le (coord2 p d) hi) /\
  ((exists p, In p (p0 :: l) /\ NoNaN (coord2 p d)) -> (exists p, In p (p0 :: l) /\ Eqs lo (coord2 p d)) /\ (exists p, In p (p0 :: l) /\ Eqs hi (coord2 p d))).
Proof.
  intros A p0 l d. set (L := num_OrdLaws A). cbv zeta.
  rewrite (fold_map (fun p => coord2 p d) api_min s_min) by (intros [] []; destruct d; reflexivity).
  rewrite (fold_map (fun p => coord2 p d) api_max s_max) by (intros [] []; destruct d; reflexivity).
  destruct (min_fold L (map (fun p => coord2 p d) l) (coord2 p0 d)) as (A1 & B1 & C1).
  destruct (max_fold L (map (fun p => coord2 p d) l) (coord2 p0 d)) as (A2 & B2 & C2). cbv zeta in *.
  change (coord2 p0 d :: map (fun p => coord2 p d) l) with (map (fun p => coord2 p d) (p0 :: l)) in *.
  split; [|split].
  - intros H. split; [apply A1 | apply A2]; intros x Hx; apply in_map_iff in Hx; destruct Hx as (p & <- & Hp); now apply H.
  - intros p Hp N. split; [apply B1 | apply B2]; try assumption; apply (in_map (fun p => coord2 p d)); assumption.
  - intros (p & Hp & N). split.
    + destruct C1 as (x & Hx & E); [eapply (Le_nan1 L); apply B1; [apply (in_map (fun p => coord2 p d)); exact Hp | exact N]|]. apply in_map_iff in Hx. destruct Hx as (q & <- & Hq). now exists q.
    + destruct C2 as (x & Hx & E); [eapply (Le_nan2 L); apply B2; [apply (in_map (fun p => coord2 p d)); exact Hp | exact N]|]. apply in_map_iff in Hx. destruct Hx as (q & <- & Hq). now exists q.
Qed.
Lemma C65_min_max_of_points_3d_pf : forall (A : arith) (p0 : Point3 (num A)) (l : list (Point3 (num A))) (d : Dimension3),
  let lo := coord3 (fold_left api_min l p0) d in let hi := coord3 (fold_left api_max l p0) d in
  ((forall p, In p (p0 :: l) -> ~ NoNaN (coord3 p d)) -> ~ NoNaN lo /\ ~ NoNaN hi) /\
  (forall p, In p (p0 :: l) -> NoNaN (coord3 p d) -> Le lo (coord3 p d) /\ Le (coord3 p d) hi) /\
  ((exists p, In p (p0 :: l) /\ NoNaN (coord3 p d)) -> (exists p, In p (p0 :: l) /\ Eqs lo (coord3 p d)) /\ (exists p, In p (p0 :: l) /\ Eqs hi (coord3 p d))).
Proof.
  intros A p0 l d. set (L := num_OrdLaws A). cbv zeta.
  rewrite (fold_map (fun p => coord3 p d) api_min s_min) by (intros [] []; destruct d; reflexivity).
  rewrite (fold_map (fun p => coord3 p d) api_max s_max) by (intros [] []; destruct d; reflexivity).
  destruct (min_fold L (map (fun p => coord3 p d) l) (coord3 p0 d)) as (A1 & B1 & C1).
  destruct (max_fold L (map (fun p => coord3 p d) l) (coord3 p0 d)) as (A2 & B2 & C2). cbv zeta in *.
  change (coord3 p0 d :: map (fun p => coord3 p d) l) with (map (fun p => coord3 p d) (p0 :: l)) in *.
  split; [|split].
  - intros H. split; [apply A1 | apply A2]; intros x Hx; apply in_map_iff in Hx; destruct Hx as (p & <- & Hp); now apply H.
  - intros p Hp N. split; [apply B1 | apply B2]; try assumption; apply (in_map (fun p => coord3 p d)); assumption.
  - intros (p & Hp & N). split.
    + destruct C1 as (x & Hx & E); [eapply (Le_nan1 L); apply B1; [apply (in_map (fun p => coord3 p d)); exact Hp | exact N]|]. apply in_map_iff in Hx. destruct Hx as (q & <- & Hq). now exists q.
    + destruct C2 as (x & Hx & E); [eapply (Le_nan2 L); apply B2; [apply (in_map (fun p => coord3 p d)); exact Hp | exact N]|]. apply in_map_iff in Hx. destruct Hx as (q & <- & Hq). now exists q.
Qed.
Lemma C65_min_max_of_vectors_2d_pf : forall (A : arith) (p0 : Vector2 (num A)) (l : list (Vector2 (num A))) (d : Dimension2),
  let lo := vcoord2 (fold_left api_min l p0) d in let hi := vcoord2 (fold_left api_max l p0) d in
  ((forall p, In p (p0 :: l) -> ~ NoNaN (vcoord2 p d)) -> ~ NoNaN lo /\ ~ NoNaN hi) /\
  (forall p, In p (p0 :: l) -> NoNaN (vcoord2 p d) -> Le lo (vcoord2 p d) /\ Le (vcoord2 p d) hi) /\
  ((exists p, In p (p0 :: l) /\ NoNaN (vcoord2 p d)) -> (exists p, In p (p0 :: l) /\ Eqs lo (vcoord2 p d)) /\ (exists p, In p (p0 :: l) /\ Eqs hi (vcoord2 p d))).
Proof.
  intros A p0 l d. set (L := num_OrdLaws A). cbv zeta.
  rewrite (fold_map (fun p => vcoord2 p d) api_min s_min) by (intros [] []; destruct d; reflexivity).
  rewrite (fold_map (fun p => vcoord2 p d) api_max s_max) by (intros [] []; destruct d; reflexivity).
  destruct (min_fold L (map (fun p => vcoord2 p d) l) (vcoord2 p0 d)) as (A1 & B1 & C1).
  destruct (max_fold L (map (fun p => vcoord2 p d) l) (vcoord2 p0 d)) as (A2 & B2 & C2). cbv zeta in *.
  change (vcoord2 p0 d :: map (fun p => vcoord2 p d) l) with (map (fun p => vcoord2 p d) (p0 :: l)) in *.
  split; [|split].
  - intros H. split; [apply A1 | apply A2]; intros x Hx; apply in_map_iff in Hx; destruct Hx as (p & <- & Hp); now apply H.
  - intros p Hp N. split; [apply B1 | apply B2]; try assumption; apply (in_map (fun p => vcoord2 p d)); assumption.
  - intros (p & Hp & N). split.
    + destruct C1 as (x & Hx & E); [eapply (Le_nan1 L); apply B1; [apply (in_map (fun p => vcoord2 p d)); exact Hp | exact N]|]. apply in_map_iff in Hx. destruct Hx as (q & <- & Hq). now exists q.
    + destruct C2 as (x & Hx & E); [eapply (Le_nan2 L); apply B2; [apply (in_map (fun p => vcoord2 p d)); exact Hp | exact N]|]. apply in_map_iff in Hx. destruct Hx as (q & <- & Hq). now exists q.
Qed.
Lemma C65_min_max_of_vectors_3d_pf : forall (A : arith) (p0 : Vector3 (num A)) (l : list (Vector3 (num A))) (d : Dimension3),
  let lo := vcoord3 (fold_left api_min l p0) d in let hi := vcoord3 (fold_left api_max l p0) d in
  ((forall p, In p (p0 :: l) -> ~ NoNaN (vcoord3 p d)) -> ~ NoNaN lo /\ ~ NoNaN hi) /\
  (forall p, In p (p0 :: l) -> NoNaN (vcoord3 p d) -> Le lo (vcoord3 p d) /\ Le (vcoord3 p d) hi) /\
  ((exists p, In p (p0 :: l) /\ NoNaN (vcoord3 p d)) -> (exists p, In p (p0 :: l) /\ Eqs lo (vcoord3 p d)) /\ (exists p, In p (p0 :: l) /\ Eqs hi (vcoord3 p d))).
Proof.
  intros A p0 l d. set (L := num_OrdLaws A). cbv zeta.
  rewrite (fold_map (fun p => vcoord3 p d) api_min s_min) by (intros [] []; destruct d; reflexivity).
  rewrite (fold_map (fun p => vcoord3 p d) api_max s_max) by (intros [] []; destruct d; reflexivity).
  destruct (min_fold L (map (fun p => vcoord3 p d) l) (vcoord3 p0 d)) as (A1 & B1 & C1).
  destruct (max_fold L (map (fun p => vcoord3 p d) l) (vcoord3 p0 d)) as (A2 & B2 & C2). cbv zeta in *.
  change (vcoord3 p0 d :: map (fun p => vcoord3 p d) l) with (map (fun p => vcoord3 p d) (p0 :: l)) in *.
  split; [|split].
  - intros H. split; [apply A1 | apply A2]; intros x Hx; apply in_map_iff in Hx; destruct Hx as (p & <- & Hp); now apply H.
  - intros p Hp N. split; [apply B1 | apply B2]; try assumption; apply (in_map (fun p => vcoord3 p d)); assumption.
  - intros (p & Hp & N). split.
    + destruct C1 as (x & Hx & E); [eapply (Le_nan1 L); apply B1; [apply (in_map (fun p => vcoord3 p d)); exact Hp | exact N]|]. apply in_map_iff in Hx. destruct Hx as (q & <- & Hq). now exists q.
    + destruct C2 as (x & Hx & E); [eapply (Le_nan2 L); apply B2; [apply (in_map (fun p => vcoord3 p d)); exact Hp | exact N]|]. apply in_map_iff in Hx. destruct Hx as (q & <- & Hq). now exists q.
Qed.
Lemma C65_min_max_of_scalars_pf : forall (A : arith) (x0 : num A) (l : list (num A)), let lo := fold_left api_min l x0 in let hi := fold_left api_max l x0 in
  ((forall x, In x (x0 :: l) -> ~ NoNaN x) -> ~ NoNaN lo /\ ~ NoNaN hi) /\
  (forall x, In x (x0 :: l) -> NoNaN x -> Le lo x /\ Le x hi) /\
  ((exists x, In x (x0 :: l) /\ NoNaN x) -> (exists x, In x (x0 :: l) /\ Eqs lo x) /\ (exists x, In x (x0 :: l) /\ Eqs hi x)).
Proof.
  intros A x0 l. set (L := num_OrdLaws A). cbv zeta. destruct (min_fold L l x0) as (A1 & B1 & C1). destruct (max_fold L l x0) as (A2 & B2 & C2). cbv zeta in *.
  split; [|split].
  - intros H. split; [exact (A1 H) | exact (A2 H)].
  - intros x Hx N. split; [exact (B1 x Hx N) | exact (B2 x Hx N)].
  - intros (x & Hx & N). split; [apply C1; exact (Le_nan1 L _ _ (B1 x Hx N)) | apply C2; exact (Le_nan2 L _ _ (B2 x Hx N))].
Qed.
