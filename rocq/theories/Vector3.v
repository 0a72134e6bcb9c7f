(** Model of src/vector3.rs: one definition per Rust function. *)
From Coq Require Import Bool.
From Verif Require Import Scalar Types.

Section M.
Context {S : Type} {O : ScalarOps S}.
Local Open Scope s_scope.

(* src/vector3.rs:51-55  new *)
Definition v3_new (x y z : S) : Vector3 S := mkVector3 x y z.
(* src/vector3.rs:57-61  zero *)
Definition v3_zero : Vector3 S := v3_new szero szero szero.
(* src/vector3.rs:63-67  x_axis *)
Definition v3_x_axis : Vector3 S := v3_new sone szero szero.
(* src/vector3.rs:69-73  y_axis *)
Definition v3_y_axis : Vector3 S := v3_new szero sone szero.
(* src/vector3.rs:75-79  z_axis *)
Definition v3_z_axis : Vector3 S := v3_new szero szero sone.
(* src/vector3.rs:81-89  axis *)
Definition v3_axis (dim : Dimension3) : Vector3 S :=
  match dim with D3X => v3_x_axis | D3Y => v3_y_axis | D3Z => v3_z_axis end.
(* src/vector3.rs:111-115  floor *)
Definition v3_floor (self : Vector3 S) : Vector3 S := v3_new (sfloor (v3x self)) (sfloor (v3y self)) (sfloor (v3z self)).
(* src/vector3.rs:117-121  ceil *)
Definition v3_ceil (self : Vector3 S) : Vector3 S := v3_new (sceil (v3x self)) (sceil (v3y self)) (sceil (v3z self)).
(* src/vector3.rs:123-127  round *)
Definition v3_round (self : Vector3 S) : Vector3 S := v3_new (sround (v3x self)) (sround (v3y self)) (sround (v3z self)).
(* src/vector3.rs:129-133  trunc *)
Definition v3_trunc (self : Vector3 S) : Vector3 S := v3_new (strunc (v3x self)) (strunc (v3y self)) (strunc (v3z self)).
(* src/vector3.rs:135-139  fract *)
Definition v3_fract (self : Vector3 S) : Vector3 S := v3_new (sfract (v3x self)) (sfract (v3y self)) (sfract (v3z self)).
(* src/vector3.rs:141-145  abs *)
Definition v3_abs (self : Vector3 S) : Vector3 S := v3_new (sabs (v3x self)) (sabs (v3y self)) (sabs (v3z self)).
(* src/vector3.rs:97-102  min_dimension *)
Definition v3_min_dimension (self : Vector3 S) : Dimension3 :=
  let a := v3_abs self in let x := v3x a in let y := v3y a in let z := v3z a in
  if (x <= y) && (x <= z) then D3X else if y <= z then D3Y else D3Z.
(* src/vector3.rs:104-109  max_dimension *)
Definition v3_max_dimension (self : Vector3 S) : Dimension3 :=
  let a := v3_abs self in let x := v3x a in let y := v3y a in let z := v3z a in
  if (x > y) && (x > z) then D3X else if y > z then D3Y else D3Z.
(* src/vector3.rs:154-165  Index *)
Definition v3_index (self : Vector3 S) (dim : Dimension3) : S :=
  match dim with D3X => v3x self | D3Y => v3y self | D3Z => v3z self end.
(* src/vector3.rs:167-176  IndexMut: [self[dim] = value] through the returned reference *)
Definition v3_index_set (self : Vector3 S) (dim : Dimension3) (value : S) : Vector3 S :=
  match dim with
  | D3X => mkVector3 value (v3y self) (v3z self)
  | D3Y => mkVector3 (v3x self) value (v3z self)
  | D3Z => mkVector3 (v3x self) (v3y self) value
  end.
(* src/vector3.rs:147-151  permute *)
Definition v3_permute (self : Vector3 S) (dim_x dim_y dim_z : Dimension3) : Vector3 S :=
  v3_new (v3_index self dim_x) (v3_index self dim_y) (v3_index self dim_z).
(* src/vector3.rs:181-183  MinMax::min *)
Definition v3_min (self o : Vector3 S) : Vector3 S := v3_new (s_min (v3x self) (v3x o)) (s_min (v3y self) (v3y o)) (s_min (v3z self) (v3z o)).
(* src/vector3.rs:187-189  MinMax::max *)
Definition v3_max (self o : Vector3 S) : Vector3 S := v3_new (s_max (v3x self) (v3x o)) (s_max (v3y self) (v3y o)) (s_max (v3z self) (v3z o)).
(* src/vector3.rs:240-248  DotProduct::dot *)
Definition v3_dot (self v : Vector3 S) : S := v3x self * v3x v + v3y self * v3y v + v3z self * v3z v.
(* src/vector3.rs:250-258  CrossProduct::cross *)
Definition v3_cross (self v : Vector3 S) : Vector3 S :=
  v3_new (v3y self * v3z v - v3z self * v3y v)
         (v3z self * v3x v - v3x self * v3z v)
         (v3x self * v3y v - v3y self * v3x v).
(* src/vector3.rs:192-200  Length::length *)
Definition v3_length (self : Vector3 S) : S := ssqrt (v3_dot self self).
(* src/vector3.rs:208-210  RelativeLength::is_shorter_than *)
Definition v3_is_shorter_than (self v : Vector3 S) : bool := v3_dot self self < v3_dot v v.
(* src/vector3.rs:217-219  RelativeLength::is_longer_than *)
Definition v3_is_longer_than (self v : Vector3 S) : bool := v3_dot self self > v3_dot v v.
(* src/vector3.rs:226-228  RelativeLength::shortest *)
Definition v3_shortest (self v : Vector3 S) : Vector3 S := if v3_is_shorter_than self v then self else v.
(* src/vector3.rs:235-237  RelativeLength::longest *)
Definition v3_longest (self v : Vector3 S) : Vector3 S := if v3_is_longer_than self v then self else v.
(* src/vector3.rs:260-267  Add<Vector3> *)
Definition v3_add (self : Vector3 S) (v : Vector3 S) : Vector3 S := v3_new (v3x self + v3x v) (v3y self + v3y v) (v3z self + v3z v).
(* src/vector3.rs:269-276  AddAssign<Vector3>: self after the call *)
Definition v3_add_assign (self : Vector3 S) (v : Vector3 S) : Vector3 S :=
  let self := mkVector3 (v3x self + v3x v) (v3y self) (v3z self) in
  let self := mkVector3 (v3x self) (v3y self + v3y v) (v3z self) in
  let self := mkVector3 (v3x self) (v3y self) (v3z self + v3z v) in
  self.
(* src/vector3.rs:278-285  Sub<Vector3> *)
Definition v3_sub (self : Vector3 S) (v : Vector3 S) : Vector3 S := v3_new (v3x self - v3x v) (v3y self - v3y v) (v3z self - v3z v).
(* src/vector3.rs:287-294  SubAssign<Vector3>: self after the call *)
Definition v3_sub_assign (self : Vector3 S) (v : Vector3 S) : Vector3 S :=
  let self := mkVector3 (v3x self - v3x v) (v3y self) (v3z self) in
  let self := mkVector3 (v3x self) (v3y self - v3y v) (v3z self) in
  let self := mkVector3 (v3x self) (v3y self) (v3z self - v3z v) in
  self.
(* src/vector3.rs:296-303  Neg *)
Definition v3_neg (self : Vector3 S) : Vector3 S := v3_new (- v3x self) (- v3y self) (- v3z self).
(* src/vector3.rs:305-312  Mul<S> *)
Definition v3_mul (self : Vector3 S) (s : S) : Vector3 S := v3_new (v3x self * s) (v3y self * s) (v3z self * s).
(* src/vector3.rs:314-321  MulAssign<S>: self after the call *)
Definition v3_mul_assign (self : Vector3 S) (s : S) : Vector3 S :=
  let self := mkVector3 (v3x self * s) (v3y self) (v3z self) in
  let self := mkVector3 (v3x self) (v3y self * s) (v3z self) in
  let self := mkVector3 (v3x self) (v3y self) (v3z self * s) in
  self.
(* src/vector3.rs:323-339  Mul<Vector3f> for f32, Mul<Vector3d> for f64 *)
Definition v3_lmul (self : S) (o : Vector3 S) : Vector3 S := v3_mul o self.
(* src/vector3.rs:341-348  Div<S> *)
Definition v3_div (self : Vector3 S) (s : S) : Vector3 S := v3_new (v3x self / s) (v3y self / s) (v3z self / s).
(* src/vector3.rs:350-357  DivAssign<S>: self after the call *)
Definition v3_div_assign (self : Vector3 S) (s : S) : Vector3 S :=
  let self := mkVector3 (v3x self / s) (v3y self) (v3z self) in
  let self := mkVector3 (v3x self) (v3y self / s) (v3z self) in
  let self := mkVector3 (v3x self) (v3y self) (v3z self / s) in
  self.
(* src/vector3.rs:359-364  From<Point3> *)
Definition v3_from (o : Point3 S) : Vector3 S := v3_new (p3x o) (p3y o) (p3z o).
(* src/vector3.rs:91-95  normalize *)
Definition v3_normalize (self : Vector3 S) : Vector3 S := v3_div self (v3_length self).
End M.
