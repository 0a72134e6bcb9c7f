(** Model of src/point3.rs: one definition per Rust function. *)
From Coq Require Import Bool.
From Verif Require Import Scalar Types Vector3.

Section M.
Context {S : Type} {O : ScalarOps S}.
Local Open Scope s_scope.

(* src/point3.rs:51-55  new *)
Definition p3_new (x y z : S) : Point3 S := mkPoint3 x y z.
(* src/point3.rs:57-61  origin *)
Definition p3_origin : Point3 S := p3_new szero szero szero.
(* src/point3.rs:77-81  floor *)
Definition p3_floor (self : Point3 S) : Point3 S := p3_new (sfloor (p3x self)) (sfloor (p3y self)) (sfloor (p3z self)).
(* src/point3.rs:83-87  ceil *)
Definition p3_ceil (self : Point3 S) : Point3 S := p3_new (sceil (p3x self)) (sceil (p3y self)) (sceil (p3z self)).
(* src/point3.rs:89-93  round *)
Definition p3_round (self : Point3 S) : Point3 S := p3_new (sround (p3x self)) (sround (p3y self)) (sround (p3z self)).
(* src/point3.rs:95-99  trunc *)
Definition p3_trunc (self : Point3 S) : Point3 S := p3_new (strunc (p3x self)) (strunc (p3y self)) (strunc (p3z self)).
(* src/point3.rs:101-105  fract *)
Definition p3_fract (self : Point3 S) : Point3 S := p3_new (sfract (p3x self)) (sfract (p3y self)) (sfract (p3z self)).
(* src/point3.rs:107-111  abs *)
Definition p3_abs (self : Point3 S) : Point3 S := p3_new (sabs (p3x self)) (sabs (p3y self)) (sabs (p3z self)).
(* src/point3.rs:63-68  min_dimension *)
Definition p3_min_dimension (self : Point3 S) : Dimension3 :=
  let a := p3_abs self in let x := p3x a in let y := p3y a in let z := p3z a in
  if (x <= y) && (x <= z) then D3X else if y <= z then D3Y else D3Z.
(* src/point3.rs:70-75  max_dimension *)
Definition p3_max_dimension (self : Point3 S) : Dimension3 :=
  let a := p3_abs self in let x := p3x a in let y := p3y a in let z := p3z a in
  if (x > y) && (x > z) then D3X else if y > z then D3Y else D3Z.
(* src/point3.rs:120-131  Index *)
Definition p3_index (self : Point3 S) (dim : Dimension3) : S :=
  match dim with D3X => p3x self | D3Y => p3y self | D3Z => p3z self end.
(* src/point3.rs:133-142  IndexMut: [self[dim] = value] through the returned reference *)
Definition p3_index_set (self : Point3 S) (dim : Dimension3) (value : S) : Point3 S :=
  match dim with
  | D3X => mkPoint3 value (p3y self) (p3z self)
  | D3Y => mkPoint3 (p3x self) value (p3z self)
  | D3Z => mkPoint3 (p3x self) (p3y self) value
  end.
(* src/point3.rs:113-117  permute *)
Definition p3_permute (self : Point3 S) (dim_x dim_y dim_z : Dimension3) : Point3 S :=
  p3_new (p3_index self dim_x) (p3_index self dim_y) (p3_index self dim_z).
(* src/point3.rs:147-149  MinMax::min *)
Definition p3_min (self o : Point3 S) : Point3 S := p3_new (s_min (p3x self) (p3x o)) (s_min (p3y self) (p3y o)) (s_min (p3z self) (p3z o)).
(* src/point3.rs:153-155  MinMax::max *)
Definition p3_max (self o : Point3 S) : Point3 S := p3_new (s_max (p3x self) (p3x o)) (s_max (p3y self) (p3y o)) (s_max (p3z self) (p3z o)).
(* src/point3.rs:208-215  Add<Vector3> *)
Definition p3_add (self : Point3 S) (v : Vector3 S) : Point3 S := p3_new (p3x self + v3x v) (p3y self + v3y v) (p3z self + v3z v).
(* src/point3.rs:217-224  AddAssign<Vector3>: self after the call *)
Definition p3_add_assign (self : Point3 S) (v : Vector3 S) : Point3 S :=
  let self := mkPoint3 (p3x self + v3x v) (p3y self) (p3z self) in
  let self := mkPoint3 (p3x self) (p3y self + v3y v) (p3z self) in
  let self := mkPoint3 (p3x self) (p3y self) (p3z self + v3z v) in
  self.
(* src/point3.rs:226-233  Sub<Vector3> *)
Definition p3_sub_v (self : Point3 S) (v : Vector3 S) : Point3 S := p3_new (p3x self - v3x v) (p3y self - v3y v) (p3z self - v3z v).
(* src/point3.rs:235-242  SubAssign<Vector3>: self after the call *)
Definition p3_sub_assign (self : Point3 S) (v : Vector3 S) : Point3 S :=
  let self := mkPoint3 (p3x self - v3x v) (p3y self) (p3z self) in
  let self := mkPoint3 (p3x self) (p3y self - v3y v) (p3z self) in
  let self := mkPoint3 (p3x self) (p3y self) (p3z self - v3z v) in
  self.
(* src/point3.rs:244-251  Sub<Point3> *)
Definition p3_sub (self p : Point3 S) : Vector3 S := v3_new (p3x self - p3x p) (p3y self - p3y p) (p3z self - p3z p).
(* src/point3.rs:253-260  Neg *)
Definition p3_neg (self : Point3 S) : Point3 S := p3_new (- p3x self) (- p3y self) (- p3z self).
(* src/point3.rs:262-269  Mul<S> *)
Definition p3_mul (self : Point3 S) (s : S) : Point3 S := p3_new (p3x self * s) (p3y self * s) (p3z self * s).
(* src/point3.rs:271-278  MulAssign<S>: self after the call *)
Definition p3_mul_assign (self : Point3 S) (s : S) : Point3 S :=
  let self := mkPoint3 (p3x self * s) (p3y self) (p3z self) in
  let self := mkPoint3 (p3x self) (p3y self * s) (p3z self) in
  let self := mkPoint3 (p3x self) (p3y self) (p3z self * s) in
  self.
(* src/point3.rs:280-296  Mul<Point3f> for f32, Mul<Point3d> for f64 *)
Definition p3_lmul (self : S) (o : Point3 S) : Point3 S := p3_mul o self.
(* src/point3.rs:298-305  Div<S> *)
Definition p3_div (self : Point3 S) (s : S) : Point3 S := p3_new (p3x self / s) (p3y self / s) (p3z self / s).
(* src/point3.rs:307-314  DivAssign<S>: self after the call *)
Definition p3_div_assign (self : Point3 S) (s : S) : Point3 S :=
  let self := mkPoint3 (p3x self / s) (p3y self) (p3z self) in
  let self := mkPoint3 (p3x self) (p3y self / s) (p3z self) in
  let self := mkPoint3 (p3x self) (p3y self) (p3z self / s) in
  self.
(* src/point3.rs:316-321  From<Vector3> *)
Definition p3_from (o : Vector3 S) : Point3 S := p3_new (v3x o) (v3y o) (v3z o).
(* src/point3.rs:158-166  Distance::distance *)
Definition p3_distance (self p : Point3 S) : S := v3_length (p3_sub p self).
(* src/point3.rs:174-177  RelativeDistance::is_closer_to *)
Definition p3_is_closer_to (self p1 p2 : Point3 S) : bool :=
  let v1 := p3_sub p1 self in let v2 := p3_sub p2 self in
  v3_dot v1 v1 < v3_dot v2 v2.
(* src/point3.rs:184-187  RelativeDistance::is_farther_from *)
Definition p3_is_farther_from (self p1 p2 : Point3 S) : bool :=
  let v1 := p3_sub p1 self in let v2 := p3_sub p2 self in
  v3_dot v1 v1 > v3_dot v2 v2.
(* src/point3.rs:194-196  RelativeDistance::closest *)
Definition p3_closest (self p1 p2 : Point3 S) : Point3 S := if p3_is_closer_to self p1 p2 then p1 else p2.
(* src/point3.rs:203-205  RelativeDistance::farthest *)
Definition p3_farthest (self p1 p2 : Point3 S) : Point3 S := if p3_is_farther_from self p1 p2 then p1 else p2.
End M.
