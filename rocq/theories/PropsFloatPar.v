(** Theorems: C96 (rays that do not move along an axis).
    [A] ranges over f32 and f64 on every platform, and exact reals extended with infinities and NaN. *)
From Coq Require Import Bool NArith ZArith Reals List Lia.
From Flocq Require Import IEEE754.BinarySingleNaN.
From Verif Require Import Scalar Types Vector2 Vector3 Point2 Point3 Ray BoundingBox2 BoundingBox3 Float XReal Arith SpecOrder SpecFloat SpecPar ExVals FloatPar.
Import ListNotations.
(** * C96: along an axis on which a ray does not move, its origin lies between the faces, ahead of them or behind them *)
Theorem C96_cases : forall (A : arith) (lo hi o d : num A), Finite o -> Le lo hi -> Eqs d szero -> Between lo o hi \/ Ahead lo o hi d \/ Behind lo o hi d.
Proof. exact C96_cases_pf. Qed.
Print Assumptions C96_cases.
(** * behind on one axis: a miss; ahead on one axis: a miss, or the range infinity..infinity *)
Theorem C96_beside_the_box_2d : forall (A : arith) (b : BoundingBox2 (num A)) (r : Ray2 (num A)) (d : Dimension2), Finite2 (r2_origin r) ->
  let lo := coord2 (bb2_min b) d in let hi := coord2 (bb2_max b) d in let o := coord2 (r2_origin r) d in let v := vcoord2 (r2_direction r) d in
  (Behind lo o hi v -> bb2_intersect_ray b r = None) /\
  (Ahead lo o hi v -> match bb2_intersect_ray b r with Some (s, e) => Eqs s sinf /\ Eqs e sinf | None => True end).
Proof. exact C96_beside_the_box_2d_pf. Qed.
Print Assumptions C96_beside_the_box_2d.
Theorem C96_beside_the_box_3d : forall (A : arith) (b : BoundingBox3 (num A)) (r : Ray3 (num A)) (d : Dimension3), Finite3 (r3_origin r) ->
  let lo := coord3 (bb3_min b) d in let hi := coord3 (bb3_max b) d in let o := coord3 (r3_origin r) d in let v := vcoord3 (r3_direction r) d in
  (Behind lo o hi v -> bb3_intersect_ray b r = None) /\
  (Ahead lo o hi v -> match bb3_intersect_ray b r with Some (s, e) => Eqs s sinf /\ Eqs e sinf | None => True end).
Proof. exact C96_beside_the_box_3d_pf. Qed.
Print Assumptions C96_beside_the_box_3d.
(** * a ray that does not move at all: the range 0..infinity if the origin is between all faces, infinity..infinity if it is ahead somewhere and behind nowhere *)
Theorem C96_no_direction_2d : forall (A : arith) (b : BoundingBox2 (num A)) (r : Ray2 (num A)), Finite2 (r2_origin r) -> (forall d, Eqs (vcoord2 (r2_direction r) d) szero) ->
  let at_ (P : num A -> num A -> num A -> num A -> Prop) d := P (coord2 (bb2_min b) d) (coord2 (r2_origin r) d) (coord2 (bb2_max b) d) (vcoord2 (r2_direction r) d) in
  ((forall d, at_ (fun lo o hi _ => Between lo o hi) d) -> exists s e, bb2_intersect_ray b r = Some (s, e) /\ Eqs s szero /\ Eqs e sinf) /\
  ((forall d, at_ (fun lo o hi v => Between lo o hi \/ Ahead lo o hi v) d) -> (exists d, at_ Ahead d) -> exists s e, bb2_intersect_ray b r = Some (s, e) /\ Eqs s sinf /\ Eqs e sinf).
Proof. exact C96_no_direction_2d_pf. Qed.
Print Assumptions C96_no_direction_2d.
Theorem C96_no_direction_3d : forall (A : arith) (b : BoundingBox3 (num A)) (r : Ray3 (num A)), Finite3 (r3_origin r) -> (forall d, Eqs (vcoord3 (r3_direction r) d) szero) ->
  let at_ (P : num A -> num A -> num A -> num A -> Prop) d := P (coord3 (bb3_min b) d) (coord3 (r3_origin r) d) (coord3 (bb3_max b) d) (vcoord3 (r3_direction r) d) in
  ((forall d, at_ (fun lo o hi _ => Between lo o hi) d) -> exists s e, bb3_intersect_ray b r = Some (s, e) /\ Eqs s szero /\ Eqs e sinf) /\
  ((forall d, at_ (fun lo o hi v => Between lo o hi \/ Ahead lo o hi v) d) -> (exists d, at_ Ahead d) -> exists s e, bb3_intersect_ray b r = Some (s, e) /\ Eqs s sinf /\ Eqs e sinf).
Proof. exact C96_no_direction_3d_pf. Qed.
Print Assumptions C96_no_direction_3d.
(* FINDING: a ray that does not move, started outside a box, is reported as a hit or a miss depending on the signs of its zeros *)
Definition zbox : BoundingBox2 (num A64) := mkBB2 (mkPoint2 (d64 1 0) (d64 1 0)) (mkPoint2 (d64 2 0) (d64 2 0)).
Definition zray (s : bool) : Ray2 (num A64) := mkRay2 (mkPoint2 (d64 0 0) (d64 0 0)) (mkVector2 (B754_zero s : num A64) (B754_zero s : num A64)).
Example C96_zero_direction_refuted :
  is_some (bb2_intersect_ray zbox (zray false)) = true /\ is_some (bb2_intersect_ray zbox (zray true)) = false /\ bb2_is_inside zbox (r2_origin (zray false)) = false.
Proof. repeat split; vm_compute; reflexivity. Qed.
(* the same for a moving ray beside a box that extends to infinity: never inside, reported as infinity..infinity *)
Example C96_half_infinite_refuted : match bb2_intersect_ray hbox hray with Some (s, e) => seq s sinf && seq e sinf | None => false end = true.
Proof. vm_compute. reflexivity. Qed.
Theorem C96_half_infinite_never_inside : forall t : num A64, bb2_is_inside hbox (r2_at hray t) = false.
Proof. exact C96_half_infinite_never_inside_pf. Qed.
Print Assumptions C96_half_infinite_never_inside.
