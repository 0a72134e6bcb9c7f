(** Model of src/boundingbox2.rs: one definition per Rust function. *)
From Coq Require Import Bool NArith.
From Verif Require Import Scalar Types Vector2 Point2 Ray.

Section M.
Context {S : Type} {O : ScalarOps S}.
Local Open Scope s_scope.

(* src/boundingbox2.rs:35-42  new *)
Definition bb2_new (p1 p2 : Point2 S) : BoundingBox2 S :=
  let min := p2_min p1 p2 in
  let max := p2_max p1 p2 in
  mkBB2 min max.

(* src/boundingbox2.rs:44-51  empty *)
Definition bb2_empty : BoundingBox2 S := mkBB2 (p2_new sinf sinf) (p2_new sninf sninf).

(* src/boundingbox2.rs:53-60  infinite *)
Definition bb2_infinite : BoundingBox2 S := mkBB2 (p2_new sninf sninf) (p2_new sinf sinf).

(* src/boundingbox2.rs:62-66  width *)
Definition bb2_width (self : BoundingBox2 S) : S := p2x (bb2_max self) - p2x (bb2_min self).

(* src/boundingbox2.rs:68-72  height *)
Definition bb2_height (self : BoundingBox2 S) : S := p2y (bb2_max self) - p2y (bb2_min self).

(* src/boundingbox2.rs:74-78  size *)
Definition bb2_size (self : BoundingBox2 S) : S * S := (bb2_width self, bb2_height self).

(* src/boundingbox2.rs:80-87  extent *)
Definition bb2_extent (self : BoundingBox2 S) (dim : Dimension2) : S :=
  match dim with D2X => bb2_width self | D2Y => bb2_height self end.

(* src/boundingbox2.rs:125-129  diagonal *)
Definition bb2_diagonal (self : BoundingBox2 S) : Vector2 S := p2_sub (bb2_max self) (bb2_min self).

(* src/boundingbox2.rs:89-94  min_dimension *)
Definition bb2_min_dimension (self : BoundingBox2 S) : Dimension2 :=
  let d := bb2_diagonal self in
  if v2x d <= v2y d then D2X else D2Y.

(* src/boundingbox2.rs:96-101  max_dimension *)
Definition bb2_max_dimension (self : BoundingBox2 S) : Dimension2 :=
  let d := bb2_diagonal self in
  if v2x d > v2y d then D2X else D2Y.

(* src/boundingbox2.rs:103-108  area *)
Definition bb2_area (self : BoundingBox2 S) : S :=
  let (width, height) := bb2_size self in
  width * height.

(* src/boundingbox2.rs:110-114  center *)
Definition bb2_center (self : BoundingBox2 S) : Point2 S :=
  p2_add (bb2_min self) (v2_mul (bb2_diagonal self) shalf).

(* src/boundingbox2.rs:116-123  corner; [index] is a u32 *)
Definition bb2_corner (prof : profile) (self : BoundingBox2 S) (index : N) : outcome (Point2 S) :=
  let* _ := debug_assert prof (index <? 4)%N in
  let x := if (N.land index 1 =? 0)%N then p2x (bb2_min self) else p2x (bb2_max self) in
  let y := if (N.land index 2 =? 0)%N then p2y (bb2_min self) else p2y (bb2_max self) in
  Ret (p2_new x y).

(* src/boundingbox2.rs:131-138  overlaps *)
Definition bb2_overlaps (self bb : BoundingBox2 S) : bool :=
  (p2x (bb2_max self) >= p2x (bb2_min bb)) && (p2x (bb2_min self) <= p2x (bb2_max bb)) &&
  (p2y (bb2_max self) >= p2y (bb2_min bb)) && (p2y (bb2_min self) <= p2y (bb2_max bb)).

(* src/boundingbox2.rs:140-147  is_inside *)
Definition bb2_is_inside (self : BoundingBox2 S) (p : Point2 S) : bool :=
  (p2x p >= p2x (bb2_min self)) && (p2x p <= p2x (bb2_max self)) &&
  (p2y p >= p2y (bb2_min self)) && (p2y p <= p2y (bb2_max self)).

(* src/boundingbox2.rs:150-160  Union<&BoundingBox2> *)
Definition bb2_union (self bb : BoundingBox2 S) : BoundingBox2 S :=
  bb2_new (p2_min (bb2_min self) (bb2_min bb)) (p2_max (bb2_max self) (bb2_max bb)).

(* src/boundingbox2.rs:162-172  Union<Point2> *)
Definition bb2_union_point (self : BoundingBox2 S) (p : Point2 S) : BoundingBox2 S :=
  bb2_new (p2_min (bb2_min self) p) (p2_max (bb2_max self) p).

(* src/boundingbox2.rs:174-190  Intersection<&BoundingBox2> *)
Definition bb2_intersect (self bb : BoundingBox2 S) : option (BoundingBox2 S) :=
  if bb2_overlaps self bb then
    Some (bb2_new (p2_max (bb2_min self) (bb2_min bb)) (p2_min (bb2_max self) (bb2_max bb)))
  else None.

(* src/boundingbox2.rs:192-223  Intersection<&Ray2>; Range<S> start..end is the pair (start, end) *)
Definition bb2_intersect_ray (self : BoundingBox2 S) (ray : Ray2 S) : option (S * S) :=
  let start := szero in
  let end_ := sinf in
  let d1 := (p2x (bb2_min self) - p2x (r2_origin ray)) / v2x (r2_direction ray) in
  let d2 := (p2x (bb2_max self) - p2x (r2_origin ray)) / v2x (r2_direction ray) in
  let start := s_max start (s_min d1 d2) in
  let end_ := s_min end_ (s_max d1 d2) in
  if start > end_ then None
  else
    let d1 := (p2y (bb2_min self) - p2y (r2_origin ray)) / v2y (r2_direction ray) in
    let d2 := (p2y (bb2_max self) - p2y (r2_origin ray)) / v2y (r2_direction ray) in
    let start := s_max start (s_min d1 d2) in
    let end_ := s_min end_ (s_max d1 d2) in
    if start <= end_ then Some (start, end_) else None.
End M.
