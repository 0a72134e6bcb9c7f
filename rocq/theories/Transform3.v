(** Model of src/transform3.rs (Matrix4x4, Transform3) and src/transform.rs. *)
From Coq Require Import Bool NArith List.
From Verif Require Import Scalar Types Vector3 Point3 Ray BoundingBox3.
Import ListNotations.

Section M.
Context {S : Type} {O : ScalarOps S}.
Local Open Scope s_scope.

(** * Matrix4x4 *)

(* src/transform3.rs:48-52  new.  The array argument [S; 16] is given by its sixteen elements. *)
Definition m4_new (a0 a1 a2 a3 a4 a5 a6 a7 a8 a9 a10 a11 a12 a13 a14 a15 : S) : Matrix4x4 S :=
  mkM4 a0 a1 a2 a3 a4 a5 a6 a7 a8 a9 a10 a11 a12 a13 a14 a15.

(* src/transform3.rs:54-65  identity *)
Definition m4_identity : Matrix4x4 S :=
  let o := szero in let i := sone in
  m4_new i o o o
         o i o o
         o o i o
         o o o i.

(* src/transform3.rs:67-78  translate *)
Definition m4_translate (v : Vector3 S) : Matrix4x4 S :=
  let o := szero in let i := sone in
  m4_new i o o (v3x v)
         o i o (v3y v)
         o o i (v3z v)
         o o o i.

(* src/transform3.rs:80-92  rotate_x *)
Definition m4_rotate_x (angle : S) : Matrix4x4 S :=
  let o := szero in let i := sone in
  let (sin, cos) := ssin_cos angle in
  m4_new i o o o
         o cos (- sin) o
         o sin cos o
         o o o i.

(* src/transform3.rs:94-106  rotate_y *)
Definition m4_rotate_y (angle : S) : Matrix4x4 S :=
  let o := szero in let i := sone in
  let (sin, cos) := ssin_cos angle in
  m4_new cos o sin o
         o i o o
         (- sin) o cos o
         o o o i.

(* src/transform3.rs:108-120  rotate_z *)
Definition m4_rotate_z (angle : S) : Matrix4x4 S :=
  let o := szero in let i := sone in
  let (sin, cos) := ssin_cos angle in
  m4_new cos (- sin) o o
         sin cos o o
         o o i o
         o o o i.

(* src/transform3.rs:122-140  rotate_axis *)
Definition m4_rotate_axis (axis : Vector3 S) (angle : S) : Matrix4x4 S :=
  let a := v3_normalize axis in
  let o := szero in let i := sone in
  let (s, c) := ssin_cos angle in
  let cc := sone - c in
  let t1 := v3x a * v3y a * cc in
  let t2 := v3x a * v3z a * cc in
  let t3 := v3y a * v3z a * cc in
  let u1 := v3x a * s in
  let u2 := v3y a * s in
  let u3 := v3z a * s in
  m4_new (v3x a * v3x a * cc + c) (t1 - u3) (t2 + u2) o
         (t1 + u3) (v3y a * v3y a * cc + c) (t3 - u1) o
         (t2 - u2) (t3 + u1) (v3z a * v3z a * cc + c) o
         o o o i.

(* src/transform3.rs:142-153  scale *)
Definition m4_scale (sx sy sz : S) : Matrix4x4 S :=
  let o := szero in let i := sone in
  m4_new sx o o o
         o sy o o
         o o sz o
         o o o i.

(* src/transform3.rs:155-166  scale_uniform *)
Definition m4_scale_uniform (s : S) : Matrix4x4 S :=
  let o := szero in let i := sone in
  m4_new s o o o
         o s o o
         o o s o
         o o o i.

(* src/transform3.rs:168-182  inverse_look_at *)
Definition m4_inverse_look_at (from target : Point3 S) (up : Vector3 S) : Matrix4x4 S :=
  let o := szero in let i := sone in
  let direction := v3_normalize (p3_sub target from) in
  let right := v3_normalize (v3_cross (v3_normalize up) direction) in
  let new_up := v3_cross direction right in
  m4_new (v3x right) (v3x new_up) (v3x direction) (p3x from)
         (v3y right) (v3y new_up) (v3y direction) (p3y from)
         (v3z right) (v3z new_up) (v3z direction) (p3z from)
         o o o i.

(* src/transform3.rs:202-207  linear_index.  [as usize] does not truncate (usize of 32 bits or more). *)
Definition m4_linear_index (prof : profile) (row col : N) : outcome N :=
  let* _ := debug_assert prof (row <? 4)%N in
  let* _ := debug_assert prof (col <? 4)%N in
  let* r := u32_mul prof row 4 in
  u32_add prof r col.

(* self.m[i] for a run-time index: panics when out of bounds in every profile *)
Definition m4_at (self : Matrix4x4 S) (i : N) : outcome S :=
  match i with
  | 0 => Ret (m4_0 self)
  | 1 => Ret (m4_1 self)
  | 2 => Ret (m4_2 self)
  | 3 => Ret (m4_3 self)
  | 4 => Ret (m4_4 self)
  | 5 => Ret (m4_5 self)
  | 6 => Ret (m4_6 self)
  | 7 => Ret (m4_7 self)
  | 8 => Ret (m4_8 self)
  | 9 => Ret (m4_9 self)
  | 10 => Ret (m4_10 self)
  | 11 => Ret (m4_11 self)
  | 12 => Ret (m4_12 self)
  | 13 => Ret (m4_13 self)
  | 14 => Ret (m4_14 self)
  | 15 => Ret (m4_15 self)
  | _ => Panic
  end%N.

(* self.m[i] = value for a run-time index: the array after the write *)
Definition m4_put (self : Matrix4x4 S) (i : N) (value : S) : outcome (Matrix4x4 S) :=
  let '(mkM4 a0 a1 a2 a3 a4 a5 a6 a7 a8 a9 a10 a11 a12 a13 a14 a15) := self in
  match i with
  | 0 => Ret (mkM4 value a1 a2 a3 a4 a5 a6 a7 a8 a9 a10 a11 a12 a13 a14 a15)
  | 1 => Ret (mkM4 a0 value a2 a3 a4 a5 a6 a7 a8 a9 a10 a11 a12 a13 a14 a15)
  | 2 => Ret (mkM4 a0 a1 value a3 a4 a5 a6 a7 a8 a9 a10 a11 a12 a13 a14 a15)
  | 3 => Ret (mkM4 a0 a1 a2 value a4 a5 a6 a7 a8 a9 a10 a11 a12 a13 a14 a15)
  | 4 => Ret (mkM4 a0 a1 a2 a3 value a5 a6 a7 a8 a9 a10 a11 a12 a13 a14 a15)
  | 5 => Ret (mkM4 a0 a1 a2 a3 a4 value a6 a7 a8 a9 a10 a11 a12 a13 a14 a15)
  | 6 => Ret (mkM4 a0 a1 a2 a3 a4 a5 value a7 a8 a9 a10 a11 a12 a13 a14 a15)
  | 7 => Ret (mkM4 a0 a1 a2 a3 a4 a5 a6 value a8 a9 a10 a11 a12 a13 a14 a15)
  | 8 => Ret (mkM4 a0 a1 a2 a3 a4 a5 a6 a7 value a9 a10 a11 a12 a13 a14 a15)
  | 9 => Ret (mkM4 a0 a1 a2 a3 a4 a5 a6 a7 a8 value a10 a11 a12 a13 a14 a15)
  | 10 => Ret (mkM4 a0 a1 a2 a3 a4 a5 a6 a7 a8 a9 value a11 a12 a13 a14 a15)
  | 11 => Ret (mkM4 a0 a1 a2 a3 a4 a5 a6 a7 a8 a9 a10 value a12 a13 a14 a15)
  | 12 => Ret (mkM4 a0 a1 a2 a3 a4 a5 a6 a7 a8 a9 a10 a11 value a13 a14 a15)
  | 13 => Ret (mkM4 a0 a1 a2 a3 a4 a5 a6 a7 a8 a9 a10 a11 a12 value a14 a15)
  | 14 => Ret (mkM4 a0 a1 a2 a3 a4 a5 a6 a7 a8 a9 a10 a11 a12 a13 value a15)
  | 15 => Ret (mkM4 a0 a1 a2 a3 a4 a5 a6 a7 a8 a9 a10 a11 a12 a13 a14 value)
  | _ => Panic
  end%N.

(* src/transform3.rs:184-188  get *)
Definition m4_get (prof : profile) (self : Matrix4x4 S) (row col : N) : outcome S :=
  let* i := m4_linear_index prof row col in m4_at self i.

(* src/transform3.rs:190-194  get_mut: [*m.get_mut(row, col) = f(old)], the matrix after
   the referenced element has been updated by [f] *)
Definition m4_get_mut (prof : profile) (self : Matrix4x4 S) (row col : N) (f : S -> S) : outcome (Matrix4x4 S) :=
  let* i := m4_linear_index prof row col in
  let* x := m4_at self i in
  m4_put self i (f x).

(* src/transform3.rs:196-200  set: the matrix after the call *)
Definition m4_set (prof : profile) (self : Matrix4x4 S) (row col : N) (value : S) : outcome (Matrix4x4 S) :=
  let* i := m4_linear_index prof row col in m4_put self i value.

(* src/transform3.rs:209-218  transpose *)
Definition m4_transpose (self : Matrix4x4 S) : Matrix4x4 S :=
  m4_new (m4_0 self) (m4_4 self) (m4_8 self) (m4_12 self)
         (m4_1 self) (m4_5 self) (m4_9 self) (m4_13 self)
         (m4_2 self) (m4_6 self) (m4_10 self) (m4_14 self)
         (m4_3 self) (m4_7 self) (m4_11 self) (m4_15 self).

(* array::from_fn(|i| f(self.m[i])), and the in-place loop [for m in &mut self.m { m := f m }] *)
Definition m4_map (f : S -> S) (self : Matrix4x4 S) : Matrix4x4 S :=
  m4_new (f (m4_0 self)) (f (m4_1 self)) (f (m4_2 self)) (f (m4_3 self)) (f (m4_4 self)) (f (m4_5 self)) (f (m4_6 self)) (f (m4_7 self)) (f (m4_8 self)) (f (m4_9 self)) (f (m4_10 self)) (f (m4_11 self)) (f (m4_12 self)) (f (m4_13 self)) (f (m4_14 self)) (f (m4_15 self)).

(* src/transform3.rs:250-257  Mul<S> *)
Definition m4_muls (self : Matrix4x4 S) (s : S) : Matrix4x4 S := m4_map (fun x => x * s) self.
(* src/transform3.rs:259-264  MulAssign<S>: the matrix after the call *)
Definition m4_mul_assign (self : Matrix4x4 S) (s : S) : Matrix4x4 S := m4_map (fun m => m * s) self.
(* src/transform3.rs:266-282  Mul<&Matrix4x4f> for f32, Mul<&Matrix4x4d> for f64 *)
Definition m4_lmuls (self : S) (m : Matrix4x4 S) : Matrix4x4 S := m4_muls m self.
(* src/transform3.rs:284-291  Div<S> *)
Definition m4_divs (self : Matrix4x4 S) (s : S) : Matrix4x4 S := m4_map (fun x => x / s) self.
(* src/transform3.rs:293-298  DivAssign<S>: the matrix after the call *)
Definition m4_div_assign (self : Matrix4x4 S) (s : S) : Matrix4x4 S := m4_map (fun m => m / s) self.

(* src/transform3.rs:225  closure sub(row, col) inside cofactor(i, j); u32 arithmetic and [get] may panic *)
Definition m4_sub (prof : profile) (self : Matrix4x4 S) (i j row col : N) : outcome S :=
  let* r := (if (row <? i)%N then Ret row else u32_add prof row 1) in
  let* c := (if (col <? j)%N then Ret col else u32_add prof col 1) in
  m4_get prof self r c.

(* src/transform3.rs:224-231  closure cofactor(i, j).  [sub] is pure: each of the nine elements is read once
   here where the source reads it at each occurrence. *)
Definition m4_cofactor (prof : profile) (self : Matrix4x4 S) (i j : N) : outcome S :=
  let sub := m4_sub prof self i j in
  let* ij := u32_add prof i j in
  let sign := if (ij mod 2 =? 0)%N then sone else - sone in
  let* s00 := sub 0%N 0%N in let* s01 := sub 0%N 1%N in let* s02 := sub 0%N 2%N in
  let* s10 := sub 1%N 0%N in let* s11 := sub 1%N 1%N in let* s12 := sub 1%N 2%N in
  let* s20 := sub 2%N 0%N in let* s21 := sub 2%N 1%N in let* s22 := sub 2%N 2%N in
  Ret (sign * (s00 * s11 * s22 + s01 * s12 * s20 + s02 * s10 * s21
               - s00 * s12 * s21 - s01 * s10 * s22 - s02 * s11 * s20)).

(* src/transform3.rs:233-238  the adjugate built by inverse *)
Definition m4_adjugate (prof : profile) (self : Matrix4x4 S) : outcome (Matrix4x4 S) :=
  let cofactor := m4_cofactor prof self in
  let* a0 := cofactor 0%N 0%N in let* a1 := cofactor 1%N 0%N in let* a2 := cofactor 2%N 0%N in let* a3 := cofactor 3%N 0%N in
  let* a4 := cofactor 0%N 1%N in let* a5 := cofactor 1%N 1%N in let* a6 := cofactor 2%N 1%N in let* a7 := cofactor 3%N 1%N in
  let* a8 := cofactor 0%N 2%N in let* a9 := cofactor 1%N 2%N in let* a10 := cofactor 2%N 2%N in let* a11 := cofactor 3%N 2%N in
  let* a12 := cofactor 0%N 3%N in let* a13 := cofactor 1%N 3%N in let* a14 := cofactor 2%N 3%N in let* a15 := cofactor 3%N 3%N in
  Ret (m4_new a0 a1 a2 a3 a4 a5 a6 a7 a8 a9 a10 a11 a12 a13 a14 a15).

(* src/transform3.rs:220-247  inverse *)
Definition m4_inverse (prof : profile) (self : Matrix4x4 S) : outcome (result (Matrix4x4 S)) :=
  let* adjugate := m4_adjugate prof self in
  let det := m4_0 self * m4_0 adjugate + m4_1 self * m4_4 adjugate
             + m4_2 self * m4_8 adjugate + m4_3 self * m4_12 adjugate in
  Ret (if det != szero then Ok (m4_divs adjugate det) else Err).

(* src/transform3.rs:300-311  Mul<Point3> for &Matrix4x4 *)
Definition m4_mul_point (self : Matrix4x4 S) (p : Point3 S) : Point3 S :=
  let x := m4_0 self * p3x p + m4_1 self * p3y p + m4_2 self * p3z p + m4_3 self in
  let y := m4_4 self * p3x p + m4_5 self * p3y p + m4_6 self * p3z p + m4_7 self in
  let z := m4_8 self * p3x p + m4_9 self * p3y p + m4_10 self * p3z p + m4_11 self in
  let w := m4_12 self * p3x p + m4_13 self * p3y p + m4_14 self * p3z p + m4_15 self in
  p3_new (x / w) (y / w) (z / w).

(* src/transform3.rs:313-324  Mul<&Matrix4x4> for Point3 *)
Definition p3_mul_m4 (self : Point3 S) (m : Matrix4x4 S) : Point3 S :=
  let x := p3x self * m4_0 m + p3y self * m4_4 m + p3z self * m4_8 m + m4_12 m in
  let y := p3x self * m4_1 m + p3y self * m4_5 m + p3z self * m4_9 m + m4_13 m in
  let z := p3x self * m4_2 m + p3y self * m4_6 m + p3z self * m4_10 m + m4_14 m in
  let w := p3x self * m4_3 m + p3y self * m4_7 m + p3z self * m4_11 m + m4_15 m in
  p3_new (x / w) (y / w) (z / w).

(* src/transform3.rs:326-336  Mul<Vector3> for &Matrix4x4 *)
Definition m4_mul_vector (self : Matrix4x4 S) (v : Vector3 S) : Vector3 S :=
  let x := m4_0 self * v3x v + m4_1 self * v3y v + m4_2 self * v3z v in
  let y := m4_4 self * v3x v + m4_5 self * v3y v + m4_6 self * v3z v in
  let z := m4_8 self * v3x v + m4_9 self * v3y v + m4_10 self * v3z v in
  v3_new x y z.

(* src/transform3.rs:338-348  Mul<&Matrix4x4> for Vector3 *)
Definition v3_mul_m4 (self : Vector3 S) (m : Matrix4x4 S) : Vector3 S :=
  let x := v3x self * m4_0 m + v3y self * m4_4 m + v3z self * m4_8 m in
  let y := v3x self * m4_1 m + v3y self * m4_5 m + v3z self * m4_9 m in
  let z := v3x self * m4_2 m + v3y self * m4_6 m + v3z self * m4_10 m in
  v3_new x y z.

(* src/transform3.rs:350-374  Mul<&Matrix4x4> for &Matrix4x4 *)
Definition m4_mul (self m : Matrix4x4 S) : Matrix4x4 S :=
  m4_new
    (m4_0 self * m4_0 m + m4_1 self * m4_4 m + m4_2 self * m4_8 m + m4_3 self * m4_12 m)
    (m4_0 self * m4_1 m + m4_1 self * m4_5 m + m4_2 self * m4_9 m + m4_3 self * m4_13 m)
    (m4_0 self * m4_2 m + m4_1 self * m4_6 m + m4_2 self * m4_10 m + m4_3 self * m4_14 m)
    (m4_0 self * m4_3 m + m4_1 self * m4_7 m + m4_2 self * m4_11 m + m4_3 self * m4_15 m)
    (m4_4 self * m4_0 m + m4_5 self * m4_4 m + m4_6 self * m4_8 m + m4_7 self * m4_12 m)
    (m4_4 self * m4_1 m + m4_5 self * m4_5 m + m4_6 self * m4_9 m + m4_7 self * m4_13 m)
    (m4_4 self * m4_2 m + m4_5 self * m4_6 m + m4_6 self * m4_10 m + m4_7 self * m4_14 m)
    (m4_4 self * m4_3 m + m4_5 self * m4_7 m + m4_6 self * m4_11 m + m4_7 self * m4_15 m)
    (m4_8 self * m4_0 m + m4_9 self * m4_4 m + m4_10 self * m4_8 m + m4_11 self * m4_12 m)
    (m4_8 self * m4_1 m + m4_9 self * m4_5 m + m4_10 self * m4_9 m + m4_11 self * m4_13 m)
    (m4_8 self * m4_2 m + m4_9 self * m4_6 m + m4_10 self * m4_10 m + m4_11 self * m4_14 m)
    (m4_8 self * m4_3 m + m4_9 self * m4_7 m + m4_10 self * m4_11 m + m4_11 self * m4_15 m)
    (m4_12 self * m4_0 m + m4_13 self * m4_4 m + m4_14 self * m4_8 m + m4_15 self * m4_12 m)
    (m4_12 self * m4_1 m + m4_13 self * m4_5 m + m4_14 self * m4_9 m + m4_15 self * m4_13 m)
    (m4_12 self * m4_2 m + m4_13 self * m4_6 m + m4_14 self * m4_10 m + m4_15 self * m4_14 m)
    (m4_12 self * m4_3 m + m4_13 self * m4_7 m + m4_14 self * m4_11 m + m4_15 self * m4_15 m).

(** * Transform3 *)

(* src/transform3.rs:379-383  new *)
Definition t3_new (forward inverse : Matrix4x4 S) : Transform3 S := mkT3 forward inverse.

(* src/transform3.rs:385-391  identity *)
Definition t3_identity : Transform3 S :=
  let forward := m4_identity in
  let inverse := forward in
  t3_new forward inverse.

(* src/transform3.rs:393-399  translate *)
Definition t3_translate (v : Vector3 S) : Transform3 S :=
  let forward := m4_translate v in
  let inverse := m4_translate (v3_neg v) in
  t3_new forward inverse.

(* src/transform3.rs:401-407  rotate_x *)
Definition t3_rotate_x (angle : S) : Transform3 S :=
  let forward := m4_rotate_x angle in
  let inverse := m4_transpose forward in
  t3_new forward inverse.

(* src/transform3.rs:409-415  rotate_y *)
Definition t3_rotate_y (angle : S) : Transform3 S :=
  let forward := m4_rotate_y angle in
  let inverse := m4_transpose forward in
  t3_new forward inverse.

(* src/transform3.rs:417-423  rotate_z *)
Definition t3_rotate_z (angle : S) : Transform3 S :=
  let forward := m4_rotate_z angle in
  let inverse := m4_transpose forward in
  t3_new forward inverse.

(* src/transform3.rs:425-431  rotate_axis *)
Definition t3_rotate_axis (axis : Vector3 S) (angle : S) : Transform3 S :=
  let forward := m4_rotate_axis axis angle in
  let inverse := m4_transpose forward in
  t3_new forward inverse.

(* src/transform3.rs:433-439  scale *)
Definition t3_scale (sx sy sz : S) : Transform3 S :=
  let forward := m4_scale sx sy sz in
  let inverse := m4_scale (srecip sx) (srecip sy) (srecip sz) in
  t3_new forward inverse.

(* src/transform3.rs:441-447  scale_uniform *)
Definition t3_scale_uniform (s : S) : Transform3 S :=
  let forward := m4_scale_uniform s in
  let inverse := m4_scale_uniform (srecip s) in
  t3_new forward inverse.

(* src/transform3.rs:451-457  look_at *)
Definition t3_look_at (prof : profile) (from target : Point3 S) (up : Vector3 S) : outcome (result (Transform3 S)) :=
  let inverse := m4_inverse_look_at from target up in
  let* r := m4_inverse prof inverse in
  Ret (match r with
       | Ok forward => Ok (t3_new forward inverse)
       | Err => Err
       end).

(* src/transform3.rs:459-465  and_then *)
Definition t3_and_then (self next : Transform3 S) : Transform3 S :=
  let forward := m4_mul (t3_forward next) (t3_forward self) in
  let inverse := m4_mul (t3_inv self) (t3_inv next) in
  t3_new forward inverse.

(* src/transform3.rs:467-473  inverse *)
Definition t3_inverse (self : Transform3 S) : Transform3 S :=
  let forward := t3_inv self in
  let inverse := t3_forward self in
  t3_new forward inverse.

(* src/transform3.rs:476-484  Transform<Point3> *)
Definition t3_transform_point (self : Transform3 S) (p : Point3 S) : Point3 S := m4_mul_point (t3_forward self) p.

(* src/transform3.rs:486-494  Transform<Vector3> *)
Definition t3_transform_vector (self : Transform3 S) (v : Vector3 S) : Vector3 S := m4_mul_vector (t3_forward self) v.

(* src/transform3.rs:496-504  Transform<&Ray3> *)
Definition t3_transform_ray (self : Transform3 S) (ray : Ray3 S) : Ray3 S :=
  r3_new (t3_transform_point self (r3_origin ray)) (t3_transform_vector self (r3_direction ray)).

(* src/transform3.rs:506-527  Transform<&BoundingBox3>; the loop [for i in 1..=7] is a fold over [1;...;7]
   whose state is the pair (min_corner, max_corner) *)
Definition t3_transform_bb (self : Transform3 S) (bb : BoundingBox3 S) : BoundingBox3 S :=
  let o := t3_transform_point self (bb3_min bb) in
  let d := t3_transform_vector self (bb3_diagonal bb) in
  let body (st : Point3 S * Point3 S) (i : N) :=
    let (min_corner, max_corner) := st in
    let corner := o in
    let corner := if negb (N.land i 1 =? 0)%N then mkPoint3 (p3x corner + v3x d) (p3y corner) (p3z corner) else corner in
    let corner := if negb (N.land i 2 =? 0)%N then mkPoint3 (p3x corner) (p3y corner + v3y d) (p3z corner) else corner in
    let corner := if negb (N.land i 4 =? 0)%N then mkPoint3 (p3x corner) (p3y corner) (p3z corner + v3z d) else corner in
    (p3_min min_corner corner, p3_max max_corner corner) in
  let (min_corner, max_corner) := fold_left body [1; 2; 3; 4; 5; 6; 7]%N (o, o) in
  bb3_new min_corner max_corner.

(* src/transform3.rs:529-537  TryFrom<Matrix4x4> *)
Definition t3_try_from (prof : profile) (forward : Matrix4x4 S) : outcome (result (Transform3 S)) :=
  let* r := m4_inverse prof forward in
  Ret (match r with
       | Ok inverse => Ok (t3_new forward inverse)
       | Err => Err
       end).
End M.
