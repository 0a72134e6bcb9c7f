(** Specification vocabulary for C123: a client of the crate.  Intersecting a ray with a ball by the quadratic formula. *)
From Verif Require Import Scalar Types Vector2 Vector3 Point2 Point3 Ray.
Section A.
Context {S : Type} {O : ScalarOps S}.
(* the parameters at which the ray enters and leaves the ball around c *)
Definition ray_ball2 (r : Ray2 S) (c : Point2 S) (radius : S) : option (S * S) :=
  let w := p2_sub (r2_origin r) c in let d := r2_direction r in
  let a := v2_dot d d in let b := v2_dot w d in
  let disc := ssub (smul b b) (smul a (ssub (v2_dot w w) (smul radius radius))) in
  if slt disc szero then None else
  let s := sdiv (ssub (sneg b) (ssqrt disc)) a in let e := sdiv (sadd (sneg b) (ssqrt disc)) a in
  if slt e szero then None else Some (if slt s szero then szero else s, e).
(* the parameters at which the ray enters and leaves the ball around c *)
Definition ray_ball3 (r : Ray3 S) (c : Point3 S) (radius : S) : option (S * S) :=
  let w := p3_sub (r3_origin r) c in let d := r3_direction r in
  let a := v3_dot d d in let b := v3_dot w d in
  let disc := ssub (smul b b) (smul a (ssub (v3_dot w w) (smul radius radius))) in
  if slt disc szero then None else
  let s := sdiv (ssub (sneg b) (ssqrt disc)) a in let e := sdiv (sadd (sneg b) (ssqrt disc)) a in
  if slt e szero then None else Some (if slt s szero then szero else s, e).
End A.
