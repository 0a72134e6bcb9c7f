(** Model of src/boundingbox3.rs: one definition per Rust function. *)
From Coq Require Import Bool NArith.
From Verif Require Import Scalar Types Vector3 Point3 Ray.

Section M.
Context {S : Type} {O : ScalarOps S}.
Local Open Scope s_scope.

(* src/boundingbox3.rs:35-42  new *)
Definition bb3_new (p1 p2 : Point3 S) : BoundingBox3 S :=
  let min := p3_min p1 p2 in
  let max := p3_max p1 p2 in
  mkBB3 min max.

(* src/boundingbox3.rs:44-51  empty *)
Definition bb3_empty : BoundingBox3 S := mkBB3 (p3_new sinf sinf sinf) (p3_new sninf sninf sninf).

(* src/boundingbox3.rs:53-60  infinite *)
Definition bb3_infinite : BoundingBox3 S := mkBB3 (p3_new sninf sninf sninf) (p3_new sinf sinf sinf).

(* src/boundingbox3.rs:62-66  width *)
Definition bb3_width (self : BoundingBox3 S) : S := p3x (bb3_max self) - p3x (bb3_min self).

(* src/boundingbox3.rs:68-72  height *)
Definition bb3_height (self : BoundingBox3 S) : S := p3y (bb3_max self) - p3y (bb3_min self).

(* src/boundingbox3.rs:74-78  depth *)
Definition bb3_depth (self : BoundingBox3 S) : S := p3z (bb3_max self) - p3z (bb3_min self).

(* src/boundingbox3.rs:80-84  size *)
Definition bb3_size (self : BoundingBox3 S) : S * S * S := (bb3_width self, bb3_height self, bb3_depth self).

(* src/boundingbox3.rs:86-94  extent *)
Definition bb3_extent (self : BoundingBox3 S) (dim : Dimension3) : S :=
  match dim with D3X => bb3_width self | D3Y => bb3_height self | D3Z => bb3_depth self end.

(* src/boundingbox3.rs:140-144  diagonal *)
Definition bb3_diagonal (self : BoundingBox3 S) : Vector3 S := p3_sub (bb3_max self) (bb3_min self).

(* src/boundingbox3.rs:96-101  min_dimension *)
Definition bb3_min_dimension (self : BoundingBox3 S) : Dimension3 :=
  let d := bb3_diagonal self in
  if (v3x d <= v3y d) && (v3x d <= v3z d) then D3X else if v3y d <= v3z d then D3Y else D3Z.

(* src/boundingbox3.rs:103-108  max_dimension *)
Definition bb3_max_dimension (self : BoundingBox3 S) : Dimension3 :=
  let d := bb3_diagonal self in
  if (v3x d > v3y d) && (v3x d > v3z d) then D3X else if v3y d > v3z d then D3Y else D3Z.

(* src/boundingbox3.rs:110-115  surface_area *)
Definition bb3_surface_area (self : BoundingBox3 S) : S :=
  let d := bb3_diagonal self in
  stwo * (v3x d * v3y d + v3x d * v3z d + v3y d * v3z d).

(* src/boundingbox3.rs:117-122  volume *)
Definition bb3_volume (self : BoundingBox3 S) : S :=
  let '(width, height, depth) := bb3_size self in
  width * height * depth.

(* src/boundingbox3.rs:124-128  center *)
Definition bb3_center (self : BoundingBox3 S) : Point3 S :=
  p3_add (bb3_min self) (v3_mul (bb3_diagonal self) shalf).

(* src/boundingbox3.rs:130-138  corner; [index] is a u32 *)
Definition bb3_corner (prof : profile) (self : BoundingBox3 S) (index : N) : outcome (Point3 S) :=
  let* _ := debug_assert prof (index <? 8)%N in
  let x := if (N.land index 1 =? 0)%N then p3x (bb3_min self) else p3x (bb3_max self) in
  let y := if (N.land index 2 =? 0)%N then p3y (bb3_min self) else p3y (bb3_max self) in
  let z := if (N.land index 4 =? 0)%N then p3z (bb3_min self) else p3z (bb3_max self) in
  Ret (p3_new x y z).

(* src/boundingbox3.rs:146-154  overlaps *)
Definition bb3_overlaps (self bb : BoundingBox3 S) : bool :=
  (p3x (bb3_max self) >= p3x (bb3_min bb)) && (p3x (bb3_min self) <= p3x (bb3_max bb)) &&
  (p3y (bb3_max self) >= p3y (bb3_min bb)) && (p3y (bb3_min self) <= p3y (bb3_max bb)) &&
  (p3z (bb3_max self) >= p3z (bb3_min bb)) && (p3z (bb3_min self) <= p3z (bb3_max bb)).

(* src/boundingbox3.rs:156-164  is_inside *)
Definition bb3_is_inside (self : BoundingBox3 S) (p : Point3 S) : bool :=
  (p3x p >= p3x (bb3_min self)) && (p3x p <= p3x (bb3_max self)) &&
  (p3y p >= p3y (bb3_min self)) && (p3y p <= p3y (bb3_max self)) &&
  (p3z p >= p3z (bb3_min self)) && (p3z p <= p3z (bb3_max self)).

(* src/boundingbox3.rs:167-177  Union<&BoundingBox3> *)
Definition bb3_union (self bb : BoundingBox3 S) : BoundingBox3 S :=
  bb3_new (p3_min (bb3_min self) (bb3_min bb)) (p3_max (bb3_max self) (bb3_max bb)).

(* src/boundingbox3.rs:179-189  Union<Point3> *)
Definition bb3_union_point (self : BoundingBox3 S) (p : Point3 S) : BoundingBox3 S :=
  bb3_new (p3_min (bb3_min self) p) (p3_max (bb3_max self) p).

(* src/boundingbox3.rs:191-207  Intersection<&BoundingBox3> *)
Definition bb3_intersect (self bb : BoundingBox3 S) : option (BoundingBox3 S) :=
  if bb3_overlaps self bb then
    Some (bb3_new (p3_max (bb3_min self) (bb3_min bb)) (p3_min (bb3_max self) (bb3_max bb)))
  else None.

(* src/boundingbox3.rs:209-250  Intersection<&Ray3>; Range<S> start..end is the pair (start, end) *)
Definition bb3_intersect_ray (self : BoundingBox3 S) (ray : Ray3 S) : option (S * S) :=
  let start := szero in
  let end_ := sinf in
  let d1 := (p3x (bb3_min self) - p3x (r3_origin ray)) / v3x (r3_direction ray) in
  let d2 := (p3x (bb3_max self) - p3x (r3_origin ray)) / v3x (r3_direction ray) in
  let start := s_max start (s_min d1 d2) in
  let end_ := s_min end_ (s_max d1 d2) in
  if start > end_ then None
  else
    let d1 := (p3y (bb3_min self) - p3y (r3_origin ray)) / v3y (r3_direction ray) in
    let d2 := (p3y (bb3_max self) - p3y (r3_origin ray)) / v3y (r3_direction ray) in
    let start := s_max start (s_min d1 d2) in
    let end_ := s_min end_ (s_max d1 d2) in
    if start > end_ then None
    else
      let d1 := (p3z (bb3_min self) - p3z (r3_origin ray)) / v3z (r3_direction ray) in
      let d2 := (p3z (bb3_max self) - p3z (r3_origin ray)) / v3z (r3_direction ray) in
      let start := s_max start (s_min d1 d2) in
      let end_ := s_min end_ (s_max d1 d2) in
      if start <= end_ then Some (start, end_) else None.
End M.
