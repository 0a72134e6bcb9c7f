(** Model of src/vector2.rs: one definition per Rust function. *)
From Coq Require Import Bool.
From Verif Require Import Scalar Types.

Section M.
Context {S : Type} {O : ScalarOps S}.
Local Open Scope s_scope.

(* src/vector2.rs:50-54  new *)
Definition v2_new (x y : S) : Vector2 S := mkVector2 x y.
(* src/vector2.rs:56-60  zero *)
Definition v2_zero : Vector2 S := v2_new szero szero.
(* src/vector2.rs:62-66  x_axis *)
Definition v2_x_axis : Vector2 S := v2_new sone szero.
(* src/vector2.rs:68-72  y_axis *)
Definition v2_y_axis : Vector2 S := v2_new szero sone.
(* src/vector2.rs:74-81  axis *)
Definition v2_axis (dim : Dimension2) : Vector2 S :=
  match dim with D2X => v2_x_axis | D2Y => v2_y_axis end.
(* src/vector2.rs:103-107  floor *)
Definition v2_floor (self : Vector2 S) : Vector2 S := v2_new (sfloor (v2x self)) (sfloor (v2y self)).
(* src/vector2.rs:109-113  ceil *)
Definition v2_ceil (self : Vector2 S) : Vector2 S := v2_new (sceil (v2x self)) (sceil (v2y self)).
(* src/vector2.rs:115-119  round *)
Definition v2_round (self : Vector2 S) : Vector2 S := v2_new (sround (v2x self)) (sround (v2y self)).
(* src/vector2.rs:121-125  trunc *)
Definition v2_trunc (self : Vector2 S) : Vector2 S := v2_new (strunc (v2x self)) (strunc (v2y self)).
(* src/vector2.rs:127-131  fract *)
Definition v2_fract (self : Vector2 S) : Vector2 S := v2_new (sfract (v2x self)) (sfract (v2y self)).
(* src/vector2.rs:133-137  abs *)
Definition v2_abs (self : Vector2 S) : Vector2 S := v2_new (sabs (v2x self)) (sabs (v2y self)).
(* src/vector2.rs:89-94  min_dimension *)
Definition v2_min_dimension (self : Vector2 S) : Dimension2 :=
  let a := v2_abs self in let x := v2x a in let y := v2y a in
  if x <= y then D2X else D2Y.
(* src/vector2.rs:96-101  max_dimension *)
Definition v2_max_dimension (self : Vector2 S) : Dimension2 :=
  let a := v2_abs self in let x := v2x a in let y := v2y a in
  if x > y then D2X else D2Y.
(* src/vector2.rs:146-156  Index *)
Definition v2_index (self : Vector2 S) (dim : Dimension2) : S :=
  match dim with D2X => v2x self | D2Y => v2y self end.
(* src/vector2.rs:158-166  IndexMut: [self[dim] = value] through the returned reference *)
Definition v2_index_set (self : Vector2 S) (dim : Dimension2) (value : S) : Vector2 S :=
  match dim with
  | D2X => mkVector2 value (v2y self)
  | D2Y => mkVector2 (v2x self) value
  end.
(* src/vector2.rs:139-143  permute *)
Definition v2_permute (self : Vector2 S) (dim_x dim_y : Dimension2) : Vector2 S :=
  v2_new (v2_index self dim_x) (v2_index self dim_y).
(* src/vector2.rs:171-173  MinMax::min *)
Definition v2_min (self o : Vector2 S) : Vector2 S := v2_new (s_min (v2x self) (v2x o)) (s_min (v2y self) (v2y o)).
(* src/vector2.rs:177-179  MinMax::max *)
Definition v2_max (self o : Vector2 S) : Vector2 S := v2_new (s_max (v2x self) (v2x o)) (s_max (v2y self) (v2y o)).
(* src/vector2.rs:230-238  DotProduct::dot *)
Definition v2_dot (self v : Vector2 S) : S := v2x self * v2x v + v2y self * v2y v.
(* src/vector2.rs:182-190  Length::length *)
Definition v2_length (self : Vector2 S) : S := ssqrt (v2_dot self self).
(* src/vector2.rs:198-200  RelativeLength::is_shorter_than *)
Definition v2_is_shorter_than (self v : Vector2 S) : bool := v2_dot self self < v2_dot v v.
(* src/vector2.rs:207-209  RelativeLength::is_longer_than *)
Definition v2_is_longer_than (self v : Vector2 S) : bool := v2_dot self self > v2_dot v v.
(* src/vector2.rs:216-218  RelativeLength::shortest *)
Definition v2_shortest (self v : Vector2 S) : Vector2 S := if v2_is_shorter_than self v then self else v.
(* src/vector2.rs:225-227  RelativeLength::longest *)
Definition v2_longest (self v : Vector2 S) : Vector2 S := if v2_is_longer_than self v then self else v.
(* src/vector2.rs:240-247  Add<Vector2> *)
Definition v2_add (self : Vector2 S) (v : Vector2 S) : Vector2 S := v2_new (v2x self + v2x v) (v2y self + v2y v).
(* src/vector2.rs:249-255  AddAssign<Vector2>: self after the call *)
Definition v2_add_assign (self : Vector2 S) (v : Vector2 S) : Vector2 S :=
  let self := mkVector2 (v2x self + v2x v) (v2y self) in
  let self := mkVector2 (v2x self) (v2y self + v2y v) in
  self.
(* src/vector2.rs:257-264  Sub<Vector2> *)
Definition v2_sub (self : Vector2 S) (v : Vector2 S) : Vector2 S := v2_new (v2x self - v2x v) (v2y self - v2y v).
(* src/vector2.rs:266-272  SubAssign<Vector2>: self after the call *)
Definition v2_sub_assign (self : Vector2 S) (v : Vector2 S) : Vector2 S :=
  let self := mkVector2 (v2x self - v2x v) (v2y self) in
  let self := mkVector2 (v2x self) (v2y self - v2y v) in
  self.
(* src/vector2.rs:274-281  Neg *)
Definition v2_neg (self : Vector2 S) : Vector2 S := v2_new (- v2x self) (- v2y self).
(* src/vector2.rs:283-290  Mul<S> *)
Definition v2_mul (self : Vector2 S) (s : S) : Vector2 S := v2_new (v2x self * s) (v2y self * s).
(* src/vector2.rs:292-298  MulAssign<S>: self after the call *)
Definition v2_mul_assign (self : Vector2 S) (s : S) : Vector2 S :=
  let self := mkVector2 (v2x self * s) (v2y self) in
  let self := mkVector2 (v2x self) (v2y self * s) in
  self.
(* src/vector2.rs:300-316  Mul<Vector2f> for f32, Mul<Vector2d> for f64 *)
Definition v2_lmul (self : S) (o : Vector2 S) : Vector2 S := v2_mul o self.
(* src/vector2.rs:318-325  Div<S> *)
Definition v2_div (self : Vector2 S) (s : S) : Vector2 S := v2_new (v2x self / s) (v2y self / s).
(* src/vector2.rs:327-333  DivAssign<S>: self after the call *)
Definition v2_div_assign (self : Vector2 S) (s : S) : Vector2 S :=
  let self := mkVector2 (v2x self / s) (v2y self) in
  let self := mkVector2 (v2x self) (v2y self / s) in
  self.
(* src/vector2.rs:335-340  From<Point2> *)
Definition v2_from (o : Point2 S) : Vector2 S := v2_new (p2x o) (p2y o).
(* src/vector2.rs:83-87  normalize *)
Definition v2_normalize (self : Vector2 S) : Vector2 S := v2_div self (v2_length self).
End M.
