(** Specification vocabulary for C122: a client of the crate.  Intersecting a ray with a triangle by the formulas of Moeller and Trumbore,
    and what a hit is. *)
From Coq Require Import Reals.
From Verif Require Import Scalar Types Vector2 Vector3 Point2 Point3 Ray SpecBox.
Section A.
Context {S : Type} {O : ScalarOps S}.
(* the parameter of the hit and its two coordinates in the triangle *)
Definition ray_triangle (r : Ray3 S) (a b c : Point3 S) : option (S * S * S) :=
  let e1 := p3_sub b a in let e2 := p3_sub c a in
  let h := v3_cross (r3_direction r) e2 in
  let det := v3_dot e1 h in
  if seq det szero then None else
  let inv := srecip det in
  let w := p3_sub (r3_origin r) a in
  let u := smul (v3_dot w h) inv in
  if slt u szero then None else if slt sone u then None else
  let q := v3_cross w e1 in
  let v := smul (v3_dot (r3_direction r) q) inv in
  if slt v szero then None else if slt sone (sadd u v) then None else
  let t := smul (v3_dot e2 q) inv in
  if slt t szero then None else Some (t, u, v).
End A.
Local Open Scope R_scope.
(* the point a + u (b - a) + v (c - a) *)
Definition tri_point (a b c : Point3 R) (u v : R) : Point3 R :=
  mkPoint3 (p3x a + u * (p3x b - p3x a) + v * (p3x c - p3x a)) (p3y a + u * (p3y b - p3y a) + v * (p3y c - p3y a)) (p3z a + u * (p3z b - p3z a) + v * (p3z c - p3z a)).
(* the point of the ray at t >= 0 is the point (u, v) of the triangle *)
Definition Hits (r : Ray3 R) (a b c : Point3 R) (t u v : R) : Prop := 0 <= t /\ 0 <= u /\ 0 <= v /\ u + v <= 1 /\ Rat3 r t = tri_point a b c u v.
