(** Model of src/transform2.rs (Matrix3x3, Transform2) and src/transform.rs. *)
From Coq Require Import Bool NArith List.
From Verif Require Import Scalar Types Vector2 Point2 Ray BoundingBox2.
Import ListNotations.

Section M.
Context {S : Type} {O : ScalarOps S}.
Local Open Scope s_scope.

(** * Matrix3x3 *)

(* src/transform2.rs:48-52  new.  The array argument [S; 9] is given by its nine elements. *)
Definition m3_new (a0 a1 a2 a3 a4 a5 a6 a7 a8 : S) : Matrix3x3 S := mkM3 a0 a1 a2 a3 a4 a5 a6 a7 a8.

(* src/transform2.rs:54-64  identity *)
Definition m3_identity : Matrix3x3 S :=
  let o := szero in let i := sone in
  m3_new i o o
         o i o
         o o i.

(* src/transform2.rs:66-76  translate *)
Definition m3_translate (v : Vector2 S) : Matrix3x3 S :=
  let o := szero in let i := sone in
  m3_new i o (v2x v)
         o i (v2y v)
         o o i.

(* src/transform2.rs:78-89  rotate *)
Definition m3_rotate (angle : S) : Matrix3x3 S :=
  let o := szero in let i := sone in
  let (sin, cos) := ssin_cos angle in
  m3_new cos (- sin) o
         sin cos o
         o o i.

(* src/transform2.rs:91-101  scale *)
Definition m3_scale (sx sy : S) : Matrix3x3 S :=
  let o := szero in let i := sone in
  m3_new sx o o
         o sy o
         o o i.

(* src/transform2.rs:103-113  scale_uniform *)
Definition m3_scale_uniform (s : S) : Matrix3x3 S :=
  let o := szero in let i := sone in
  m3_new s o o
         o s o
         o o i.

(* src/transform2.rs:133-138  linear_index.  [as usize] does not truncate (usize of 32 bits or more). *)
Definition m3_linear_index (prof : profile) (row col : N) : outcome N :=
  let* _ := debug_assert prof (row <? 3)%N in
  let* _ := debug_assert prof (col <? 3)%N in
  let* r := u32_mul prof row 3 in
  u32_add prof r col.

(* self.m[i] for a run-time index: panics when out of bounds in every profile *)
Definition m3_at (self : Matrix3x3 S) (i : N) : outcome S :=
  match i with
  | 0 => Ret (m3_0 self) | 1 => Ret (m3_1 self) | 2 => Ret (m3_2 self)
  | 3 => Ret (m3_3 self) | 4 => Ret (m3_4 self) | 5 => Ret (m3_5 self)
  | 6 => Ret (m3_6 self) | 7 => Ret (m3_7 self) | 8 => Ret (m3_8 self)
  | _ => Panic
  end%N.

(* self.m[i] = value for a run-time index: the array after the write *)
Definition m3_put (self : Matrix3x3 S) (i : N) (value : S) : outcome (Matrix3x3 S) :=
  let '(mkM3 a0 a1 a2 a3 a4 a5 a6 a7 a8) := self in
  match i with
  | 0 => Ret (mkM3 value a1 a2 a3 a4 a5 a6 a7 a8)
  | 1 => Ret (mkM3 a0 value a2 a3 a4 a5 a6 a7 a8)
  | 2 => Ret (mkM3 a0 a1 value a3 a4 a5 a6 a7 a8)
  | 3 => Ret (mkM3 a0 a1 a2 value a4 a5 a6 a7 a8)
  | 4 => Ret (mkM3 a0 a1 a2 a3 value a5 a6 a7 a8)
  | 5 => Ret (mkM3 a0 a1 a2 a3 a4 value a6 a7 a8)
  | 6 => Ret (mkM3 a0 a1 a2 a3 a4 a5 value a7 a8)
  | 7 => Ret (mkM3 a0 a1 a2 a3 a4 a5 a6 value a8)
  | 8 => Ret (mkM3 a0 a1 a2 a3 a4 a5 a6 a7 value)
  | _ => Panic
  end%N.

(* src/transform2.rs:115-119  get *)
Definition m3_get (prof : profile) (self : Matrix3x3 S) (row col : N) : outcome S :=
  let* i := m3_linear_index prof row col in m3_at self i.

(* src/transform2.rs:121-125  get_mut: [*m.get_mut(row, col) = f(old)], the matrix after
   the referenced element has been updated by [f] *)
Definition m3_get_mut (prof : profile) (self : Matrix3x3 S) (row col : N) (f : S -> S) : outcome (Matrix3x3 S) :=
  let* i := m3_linear_index prof row col in
  let* x := m3_at self i in
  m3_put self i (f x).

(* src/transform2.rs:127-131  set: the matrix after the call *)
Definition m3_set (prof : profile) (self : Matrix3x3 S) (row col : N) (value : S) : outcome (Matrix3x3 S) :=
  let* i := m3_linear_index prof row col in m3_put self i value.

(* src/transform2.rs:140-148  transpose *)
Definition m3_transpose (self : Matrix3x3 S) : Matrix3x3 S :=
  m3_new (m3_0 self) (m3_3 self) (m3_6 self)
         (m3_1 self) (m3_4 self) (m3_7 self)
         (m3_2 self) (m3_5 self) (m3_8 self).

(* src/transform2.rs:154-155  the determinant computed by inverse *)
Definition m3_det (self : Matrix3x3 S) : S :=
  m3_0 self * m3_4 self * m3_8 self + m3_1 self * m3_5 self * m3_6 self + m3_2 self * m3_3 self * m3_7 self
  - m3_2 self * m3_4 self * m3_6 self - m3_1 self * m3_3 self * m3_8 self - m3_0 self * m3_5 self * m3_7 self.

(* src/transform2.rs:150-172  inverse *)
Definition m3_inverse (self : Matrix3x3 S) : result (Matrix3x3 S) :=
  let det := m3_det self in
  if det != szero then
    Ok (m3_new
      ((m3_4 self * m3_8 self - m3_5 self * m3_7 self) / det)
      ((m3_2 self * m3_7 self - m3_1 self * m3_8 self) / det)
      ((m3_1 self * m3_5 self - m3_2 self * m3_4 self) / det)
      ((m3_5 self * m3_6 self - m3_3 self * m3_8 self) / det)
      ((m3_0 self * m3_8 self - m3_2 self * m3_6 self) / det)
      ((m3_2 self * m3_3 self - m3_0 self * m3_5 self) / det)
      ((m3_3 self * m3_7 self - m3_4 self * m3_6 self) / det)
      ((m3_1 self * m3_6 self - m3_0 self * m3_7 self) / det)
      ((m3_0 self * m3_4 self - m3_1 self * m3_3 self) / det))
  else Err.

(* array::from_fn(|i| f(self.m[i])), and the in-place loop [for m in &mut self.m { m := f m }] *)
Definition m3_map (f : S -> S) (self : Matrix3x3 S) : Matrix3x3 S :=
  m3_new (f (m3_0 self)) (f (m3_1 self)) (f (m3_2 self)) (f (m3_3 self)) (f (m3_4 self))
         (f (m3_5 self)) (f (m3_6 self)) (f (m3_7 self)) (f (m3_8 self)).

(* src/transform2.rs:175-182  Mul<S> *)
Definition m3_muls (self : Matrix3x3 S) (s : S) : Matrix3x3 S := m3_map (fun x => x * s) self.
(* src/transform2.rs:184-189  MulAssign<S>: the matrix after the call *)
Definition m3_mul_assign (self : Matrix3x3 S) (s : S) : Matrix3x3 S := m3_map (fun m => m * s) self.
(* src/transform2.rs:191-207  Mul<&Matrix3x3f> for f32, Mul<&Matrix3x3d> for f64 *)
Definition m3_lmuls (self : S) (m : Matrix3x3 S) : Matrix3x3 S := m3_muls m self.
(* src/transform2.rs:209-216  Div<S> *)
Definition m3_divs (self : Matrix3x3 S) (s : S) : Matrix3x3 S := m3_map (fun x => x / s) self.
(* src/transform2.rs:218-223  DivAssign<S>: the matrix after the call *)
Definition m3_div_assign (self : Matrix3x3 S) (s : S) : Matrix3x3 S := m3_map (fun m => m / s) self.

(* src/transform2.rs:225-235  Mul<Point2> for &Matrix3x3 *)
Definition m3_mul_point (self : Matrix3x3 S) (p : Point2 S) : Point2 S :=
  let x := m3_0 self * p2x p + m3_1 self * p2y p + m3_2 self in
  let y := m3_3 self * p2x p + m3_4 self * p2y p + m3_5 self in
  let w := m3_6 self * p2x p + m3_7 self * p2y p + m3_8 self in
  p2_new (x / w) (y / w).

(* src/transform2.rs:237-247  Mul<&Matrix3x3> for Point2 *)
Definition p2_mul_m3 (self : Point2 S) (m : Matrix3x3 S) : Point2 S :=
  let x := p2x self * m3_0 m + p2y self * m3_3 m + m3_6 m in
  let y := p2x self * m3_1 m + p2y self * m3_4 m + m3_7 m in
  let w := p2x self * m3_2 m + p2y self * m3_5 m + m3_8 m in
  p2_new (x / w) (y / w).

(* src/transform2.rs:249-258  Mul<Vector2> for &Matrix3x3 *)
Definition m3_mul_vector (self : Matrix3x3 S) (v : Vector2 S) : Vector2 S :=
  let x := m3_0 self * v2x v + m3_1 self * v2y v in
  let y := m3_3 self * v2x v + m3_4 self * v2y v in
  v2_new x y.

(* src/transform2.rs:260-269  Mul<&Matrix3x3> for Vector2 *)
Definition v2_mul_m3 (self : Vector2 S) (m : Matrix3x3 S) : Vector2 S :=
  let x := v2x self * m3_0 m + v2y self * m3_3 m in
  let y := v2x self * m3_1 m + v2y self * m3_4 m in
  v2_new x y.

(* src/transform2.rs:271-287  Mul<&Matrix3x3> for &Matrix3x3 *)
Definition m3_mul (self rhs : Matrix3x3 S) : Matrix3x3 S :=
  m3_new
    (m3_0 self * m3_0 rhs + m3_1 self * m3_3 rhs + m3_2 self * m3_6 rhs)
    (m3_0 self * m3_1 rhs + m3_1 self * m3_4 rhs + m3_2 self * m3_7 rhs)
    (m3_0 self * m3_2 rhs + m3_1 self * m3_5 rhs + m3_2 self * m3_8 rhs)
    (m3_3 self * m3_0 rhs + m3_4 self * m3_3 rhs + m3_5 self * m3_6 rhs)
    (m3_3 self * m3_1 rhs + m3_4 self * m3_4 rhs + m3_5 self * m3_7 rhs)
    (m3_3 self * m3_2 rhs + m3_4 self * m3_5 rhs + m3_5 self * m3_8 rhs)
    (m3_6 self * m3_0 rhs + m3_7 self * m3_3 rhs + m3_8 self * m3_6 rhs)
    (m3_6 self * m3_1 rhs + m3_7 self * m3_4 rhs + m3_8 self * m3_7 rhs)
    (m3_6 self * m3_2 rhs + m3_7 self * m3_5 rhs + m3_8 self * m3_8 rhs).

(** * Transform2 *)

(* src/transform2.rs:292-296  new *)
Definition t2_new (forward inverse : Matrix3x3 S) : Transform2 S := mkT2 forward inverse.

(* src/transform2.rs:298-304  identity *)
Definition t2_identity : Transform2 S :=
  let forward := m3_identity in
  let inverse := forward in
  t2_new forward inverse.

(* src/transform2.rs:306-312  translate *)
Definition t2_translate (v : Vector2 S) : Transform2 S :=
  let forward := m3_translate v in
  let inverse := m3_translate (v2_neg v) in
  t2_new forward inverse.

(* src/transform2.rs:314-320  rotate *)
Definition t2_rotate (angle : S) : Transform2 S :=
  let forward := m3_rotate angle in
  let inverse := m3_transpose forward in
  t2_new forward inverse.

(* src/transform2.rs:322-328  scale *)
Definition t2_scale (sx sy : S) : Transform2 S :=
  let forward := m3_scale sx sy in
  let inverse := m3_scale (srecip sx) (srecip sy) in
  t2_new forward inverse.

(* src/transform2.rs:330-336  scale_uniform *)
Definition t2_scale_uniform (s : S) : Transform2 S :=
  let forward := m3_scale_uniform s in
  let inverse := m3_scale_uniform (srecip s) in
  t2_new forward inverse.

(* src/transform2.rs:338-344  and_then *)
Definition t2_and_then (self next : Transform2 S) : Transform2 S :=
  let forward := m3_mul (t2_forward next) (t2_forward self) in
  let inverse := m3_mul (t2_inv self) (t2_inv next) in
  t2_new forward inverse.

(* src/transform2.rs:346-352  inverse *)
Definition t2_inverse (self : Transform2 S) : Transform2 S :=
  let forward := t2_inv self in
  let inverse := t2_forward self in
  t2_new forward inverse.

(* src/transform2.rs:355-363  Transform<Point2> *)
Definition t2_transform_point (self : Transform2 S) (p : Point2 S) : Point2 S := m3_mul_point (t2_forward self) p.

(* src/transform2.rs:365-373  Transform<Vector2> *)
Definition t2_transform_vector (self : Transform2 S) (v : Vector2 S) : Vector2 S := m3_mul_vector (t2_forward self) v.

(* src/transform2.rs:375-383  Transform<&Ray2> *)
Definition t2_transform_ray (self : Transform2 S) (ray : Ray2 S) : Ray2 S :=
  r2_new (t2_transform_point self (r2_origin ray)) (t2_transform_vector self (r2_direction ray)).

(* src/transform2.rs:385-405  Transform<&BoundingBox2>; the loop [for i in 1..=3] is a fold over [1;2;3]
   whose state is the pair (min_corner, max_corner) *)
Definition t2_transform_bb (self : Transform2 S) (bb : BoundingBox2 S) : BoundingBox2 S :=
  let o := t2_transform_point self (bb2_min bb) in
  let d := t2_transform_vector self (bb2_diagonal bb) in
  let body (st : Point2 S * Point2 S) (i : N) :=
    let (min_corner, max_corner) := st in
    let corner := o in
    let corner := if negb (N.land i 1 =? 0)%N then mkPoint2 (p2x corner + v2x d) (p2y corner) else corner in
    let corner := if negb (N.land i 2 =? 0)%N then mkPoint2 (p2x corner) (p2y corner + v2y d) else corner in
    (p2_min min_corner corner, p2_max max_corner corner) in
  let (min_corner, max_corner) := fold_left body [1; 2; 3]%N (o, o) in
  bb2_new min_corner max_corner.

(* src/transform2.rs:407-415  TryFrom<Matrix3x3> *)
Definition t2_try_from (forward : Matrix3x3 S) : result (Transform2 S) :=
  match m3_inverse forward with
  | Ok inverse => Ok (t2_new forward inverse)
  | Err => Err
  end.
End M.
