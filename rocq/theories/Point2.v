(** Model of src/point2.rs: one definition per Rust function. *)
From Coq Require Import Bool.
From Verif Require Import Scalar Types Vector2.

Section M.
Context {S : Type} {O : ScalarOps S}.
Local Open Scope s_scope.

(* src/point2.rs:50-54  new *)
Definition p2_new (x y : S) : Point2 S := mkPoint2 x y.
(* src/point2.rs:56-60  origin *)
Definition p2_origin : Point2 S := p2_new szero szero.
(* src/point2.rs:76-80  floor *)
Definition p2_floor (self : Point2 S) : Point2 S := p2_new (sfloor (p2x self)) (sfloor (p2y self)).
(* src/point2.rs:82-86  ceil *)
Definition p2_ceil (self : Point2 S) : Point2 S := p2_new (sceil (p2x self)) (sceil (p2y self)).
(* src/point2.rs:88-92  round *)
Definition p2_round (self : Point2 S) : Point2 S := p2_new (sround (p2x self)) (sround (p2y self)).
(* src/point2.rs:94-98  trunc *)
Definition p2_trunc (self : Point2 S) : Point2 S := p2_new (strunc (p2x self)) (strunc (p2y self)).
(* src/point2.rs:100-104  fract *)
Definition p2_fract (self : Point2 S) : Point2 S := p2_new (sfract (p2x self)) (sfract (p2y self)).
(* src/point2.rs:106-110  abs *)
Definition p2_abs (self : Point2 S) : Point2 S := p2_new (sabs (p2x self)) (sabs (p2y self)).
(* src/point2.rs:62-67  min_dimension *)
Definition p2_min_dimension (self : Point2 S) : Dimension2 :=
  let a := p2_abs self in let x := p2x a in let y := p2y a in
  if x <= y then D2X else D2Y.
(* src/point2.rs:69-74  max_dimension *)
Definition p2_max_dimension (self : Point2 S) : Dimension2 :=
  let a := p2_abs self in let x := p2x a in let y := p2y a in
  if x > y then D2X else D2Y.
(* src/point2.rs:119-129  Index *)
Definition p2_index (self : Point2 S) (dim : Dimension2) : S :=
  match dim with D2X => p2x self | D2Y => p2y self end.
(* src/point2.rs:131-139  IndexMut: [self[dim] = value] through the returned reference *)
Definition p2_index_set (self : Point2 S) (dim : Dimension2) (value : S) : Point2 S :=
  match dim with
  | D2X => mkPoint2 value (p2y self)
  | D2Y => mkPoint2 (p2x self) value
  end.
(* src/point2.rs:112-116  permute *)
Definition p2_permute (self : Point2 S) (dim_x dim_y : Dimension2) : Point2 S :=
  p2_new (p2_index self dim_x) (p2_index self dim_y).
(* src/point2.rs:144-146  MinMax::min *)
Definition p2_min (self o : Point2 S) : Point2 S := p2_new (s_min (p2x self) (p2x o)) (s_min (p2y self) (p2y o)).
(* src/point2.rs:150-152  MinMax::max *)
Definition p2_max (self o : Point2 S) : Point2 S := p2_new (s_max (p2x self) (p2x o)) (s_max (p2y self) (p2y o)).
(* src/point2.rs:205-212  Add<Vector2> *)
Definition p2_add (self : Point2 S) (v : Vector2 S) : Point2 S := p2_new (p2x self + v2x v) (p2y self + v2y v).
(* src/point2.rs:214-220  AddAssign<Vector2>: self after the call *)
Definition p2_add_assign (self : Point2 S) (v : Vector2 S) : Point2 S :=
  let self := mkPoint2 (p2x self + v2x v) (p2y self) in
  let self := mkPoint2 (p2x self) (p2y self + v2y v) in
  self.
(* src/point2.rs:222-229  Sub<Vector2> *)
Definition p2_sub_v (self : Point2 S) (v : Vector2 S) : Point2 S := p2_new (p2x self - v2x v) (p2y self - v2y v).
(* src/point2.rs:231-237  SubAssign<Vector2>: self after the call *)
Definition p2_sub_assign (self : Point2 S) (v : Vector2 S) : Point2 S :=
  let self := mkPoint2 (p2x self - v2x v) (p2y self) in
  let self := mkPoint2 (p2x self) (p2y self - v2y v) in
  self.
(* src/point2.rs:239-246  Sub<Point2> *)
Definition p2_sub (self p : Point2 S) : Vector2 S := v2_new (p2x self - p2x p) (p2y self - p2y p).
(* src/point2.rs:248-255  Neg *)
Definition p2_neg (self : Point2 S) : Point2 S := p2_new (- p2x self) (- p2y self).
(* src/point2.rs:257-264  Mul<S> *)
Definition p2_mul (self : Point2 S) (s : S) : Point2 S := p2_new (p2x self * s) (p2y self * s).
(* src/point2.rs:266-272  MulAssign<S>: self after the call *)
Definition p2_mul_assign (self : Point2 S) (s : S) : Point2 S :=
  let self := mkPoint2 (p2x self * s) (p2y self) in
  let self := mkPoint2 (p2x self) (p2y self * s) in
  self.
(* src/point2.rs:274-290  Mul<Point2f> for f32, Mul<Point2d> for f64 *)
Definition p2_lmul (self : S) (o : Point2 S) : Point2 S := p2_mul o self.
(* src/point2.rs:292-299  Div<S> *)
Definition p2_div (self : Point2 S) (s : S) : Point2 S := p2_new (p2x self / s) (p2y self / s).
(* src/point2.rs:301-307  DivAssign<S>: self after the call *)
Definition p2_div_assign (self : Point2 S) (s : S) : Point2 S :=
  let self := mkPoint2 (p2x self / s) (p2y self) in
  let self := mkPoint2 (p2x self) (p2y self / s) in
  self.
(* src/point2.rs:309-314  From<Vector2> *)
Definition p2_from (o : Vector2 S) : Point2 S := p2_new (v2x o) (v2y o).
(* src/point2.rs:155-163  Distance::distance *)
Definition p2_distance (self p : Point2 S) : S := v2_length (p2_sub p self).
(* src/point2.rs:171-174  RelativeDistance::is_closer_to *)
Definition p2_is_closer_to (self p1 p2 : Point2 S) : bool :=
  let v1 := p2_sub p1 self in let v2 := p2_sub p2 self in
  v2_dot v1 v1 < v2_dot v2 v2.
(* src/point2.rs:181-184  RelativeDistance::is_farther_from *)
Definition p2_is_farther_from (self p1 p2 : Point2 S) : bool :=
  let v1 := p2_sub p1 self in let v2 := p2_sub p2 self in
  v2_dot v1 v1 > v2_dot v2 v2.
(* src/point2.rs:191-193  RelativeDistance::closest *)
Definition p2_closest (self p1 p2 : Point2 S) : Point2 S := if p2_is_closer_to self p1 p2 then p1 else p2.
(* src/point2.rs:200-202  RelativeDistance::farthest *)
Definition p2_farthest (self p1 p2 : Point2 S) : Point2 S := if p2_is_farther_from self p1 p2 then p1 else p2.
End M.
