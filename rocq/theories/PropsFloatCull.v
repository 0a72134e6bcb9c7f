(** Theorems: C112 (boxes against half-spaces).
    [A] ranges over f32 and f64 on every platform, and exact reals extended with infinities and NaN. *)
From Coq Require Import Bool NArith ZArith Reals List Lia.
From Verif Require Import Scalar Types Vector2 Vector3 Point2 Point3 Ray BoundingBox2 BoundingBox3 Float XReal Arith SpecOrder SpecFloat SpecErr SpecNear SpecHull SpecCull ExVals FloatHull FloatOct FloatCull.
Import ListNotations.
Local Open Scope R_scope.
(** a box that is thrown away has no point in the region, a box taken as a whole has all its points in the region *)
Theorem C112_culling_2d : forall (A : arith) (prof : profile) (h : list (Vector2 (num A) * num A)) (b : BoundingBox2 (num A)) (p : Point2 (num A)), Dots2 prof h b -> Finite2 p -> bb2_is_inside b p = true ->
  (culled2 prof h b = true -> in_region2 h p = false) /\ (taken2 prof h b = true -> in_region2 h p = true).
Proof. exact C112_culling_2d_pf. Qed.
Print Assumptions C112_culling_2d.
Theorem C112_culling_3d : forall (A : arith) (prof : profile) (h : list (Vector3 (num A) * num A)) (b : BoundingBox3 (num A)) (p : Point3 (num A)), Dots3 prof h b -> Finite3 p -> bb3_is_inside b p = true ->
  (culled3 prof h b = true -> in_region3 h p = false) /\ (taken3 prof h b = true -> in_region3 h p = true).
Proof. exact C112_culling_3d_pf. Qed.
Print Assumptions C112_culling_3d.
(** both tests are exact where they can be: a box that is not taken has a corner outside, a box that a single half-space does not throw away has a corner in it *)
Theorem C112_exact_2d : forall (A : arith) (prof : profile) (h : list (Vector2 (num A) * num A)) (b : BoundingBox2 (num A)), Ordered2 b -> BFinite2 b -> Dots2 prof h b ->
  (taken2 prof h b = true <-> forall p, Finite2 p -> bb2_is_inside b p = true -> in_region2 h p = true) /\
  (forall nk, In nk h -> NoNaN (snd nk) -> (culled2 prof [nk] b = true <-> forall p, Finite2 p -> bb2_is_inside b p = true -> in_region2 [nk] p = false)).
Proof. exact C112_exact_2d_pf. Qed.
Print Assumptions C112_exact_2d.
Theorem C112_exact_3d : forall (A : arith) (prof : profile) (h : list (Vector3 (num A) * num A)) (b : BoundingBox3 (num A)), Ordered3 b -> BFinite3 b -> Dots3 prof h b ->
  (taken3 prof h b = true <-> forall p, Finite3 p -> bb3_is_inside b p = true -> in_region3 h p = true) /\
  (forall nk, In nk h -> NoNaN (snd nk) -> (culled3 prof [nk] b = true <-> forall p, Finite3 p -> bb3_is_inside b p = true -> in_region3 [nk] p = false)).
Proof. exact C112_exact_3d_pf. Qed.
Print Assumptions C112_exact_3d.
(** collecting the points of a tree in the region, throwing away and taking whole subtrees, gives exactly the points in the region *)
Theorem C112_visible_2d : forall (A : arith) (prof : profile) (h : list (Vector2 (num A) * num A)) (t : ptree2 (num A)), Forall Finite2 (points2 t) -> Dots2 prof h (pbounds2 t) ->
  visible2 prof h t = filter (in_region2 h) (points2 t).
Proof. exact C112_visible_2d_pf. Qed.
Print Assumptions C112_visible_2d.
Theorem C112_visible_3d : forall (A : arith) (prof : profile) (h : list (Vector3 (num A) * num A)) (t : ptree3 (num A)), Forall Finite3 (points3 t) -> Dots3 prof h (pbounds3 t) ->
  visible3 prof h t = filter (in_region3 h) (points3 t).
Proof. exact C112_visible_3d_pf. Qed.
Print Assumptions C112_visible_3d.
(* the hypotheses are met: a region with two half-spaces, a box outside, a box inside, a tree with one point inside *)
Example C112_example : forall prof : profile, let h := [(mkVector2 (d64 1 0) (d64 1 0), d64 4 0); (mkVector2 (nd64 1 0) (d64 0 0), d64 0 0)] : list (Vector2 (num A64) * num A64) in
  let b := mkBB2 (mkPoint2 (d64 0 0) (d64 0 0)) (mkPoint2 (d64 1 0) (d64 2 0)) : BoundingBox2 (num A64) in let c := mkBB2 (mkPoint2 (d64 3 0) (d64 2 0)) (mkPoint2 (d64 5 0) (d64 9 0)) : BoundingBox2 (num A64) in
  let t := PNode2 (PLeaf2 (mkPoint2 (d64 1 0) (d64 1 0))) (PLeaf2 (mkPoint2 (d64 5 0) (d64 6 0))) : ptree2 (num A64) in
  taken2 prof h b = true /\ culled2 prof h c = true /\ Dots2 prof h b /\ Dots2 prof h c /\ Forall Finite2 (points2 t) /\ Dots2 prof h (pbounds2 t) /\ length (filter (in_region2 h) (points2 t)) = 1%nat.
Proof.
  intros [[] []]; cbv zeta; (split; [vm_compute; reflexivity|]; split; [vm_compute; reflexivity|]; split; [|split; [|split; [|split; [|vm_compute; reflexivity]]]]);
    first [repeat (constructor; [intros []; vm_compute; reflexivity|]); constructor | intros nk q I J; rewrite corners2_all in J; repeat (destruct I as [<-|I]; [repeat (destruct J as [<-|J]; [vm_compute; reflexivity|]); destruct J|]); destruct I].
Qed.
