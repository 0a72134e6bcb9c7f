(** Data types of the crate (fields are public in Rust, except [Matrix*::m]). *)
From Verif Require Import Scalar.

(* src/dimension2.rs:15-17 *)
Inductive Dimension2 := D2X | D2Y.
(* src/dimension3.rs:15-17 *)
Inductive Dimension3 := D3X | D3Y | D3Z.

(* src/point2.rs:20-24 *)
Record Point2 (S : Type) := mkPoint2 { p2x : S; p2y : S }.
(* src/vector2.rs:20-24 *)
Record Vector2 (S : Type) := mkVector2 { v2x : S; v2y : S }.
(* src/point3.rs:20-25 *)
Record Point3 (S : Type) := mkPoint3 { p3x : S; p3y : S; p3z : S }.
(* src/vector3.rs:20-25 *)
Record Vector3 (S : Type) := mkVector3 { v3x : S; v3y : S; v3z : S }.
(* src/ray2.rs:18-22 *)
Record Ray2 (S : Type) := mkRay2 { r2_origin : Point2 S; r2_direction : Vector2 S }.
(* src/ray3.rs:18-22 *)
Record Ray3 (S : Type) := mkRay3 { r3_origin : Point3 S; r3_direction : Vector3 S }.
(* src/boundingbox2.rs:20-24 *)
Record BoundingBox2 (S : Type) := mkBB2 { bb2_min : Point2 S; bb2_max : Point2 S }.
(* src/boundingbox3.rs:20-24 *)
Record BoundingBox3 (S : Type) := mkBB3 { bb3_min : Point3 S; bb3_max : Point3 S }.
(* src/transform2.rs:21-24  [m: [S; 9]]: a fixed-size array is a record with one field per index. *)
Record Matrix3x3 (S : Type) := mkM3 {
  m3_0 : S; m3_1 : S; m3_2 : S;
  m3_3 : S; m3_4 : S; m3_5 : S;
  m3_6 : S; m3_7 : S; m3_8 : S }.
(* src/transform3.rs:21-24  [m: [S; 16]] *)
Record Matrix4x4 (S : Type) := mkM4 {
  m4_0 : S; m4_1 : S; m4_2 : S; m4_3 : S;
  m4_4 : S; m4_5 : S; m4_6 : S; m4_7 : S;
  m4_8 : S; m4_9 : S; m4_10 : S; m4_11 : S;
  m4_12 : S; m4_13 : S; m4_14 : S; m4_15 : S }.
(* src/transform2.rs:33-37 *)
Record Transform2 (S : Type) := mkT2 { t2_forward : Matrix3x3 S; t2_inv : Matrix3x3 S }.
(* src/transform3.rs:33-37 *)
Record Transform3 (S : Type) := mkT3 { t3_forward : Matrix4x4 S; t3_inv : Matrix4x4 S }.

Arguments mkPoint2 {S}. Arguments p2x {S}. Arguments p2y {S}.
Arguments mkVector2 {S}. Arguments v2x {S}. Arguments v2y {S}.
Arguments mkPoint3 {S}. Arguments p3x {S}. Arguments p3y {S}. Arguments p3z {S}.
Arguments mkVector3 {S}. Arguments v3x {S}. Arguments v3y {S}. Arguments v3z {S}.
Arguments mkRay2 {S}. Arguments r2_origin {S}. Arguments r2_direction {S}.
Arguments mkRay3 {S}. Arguments r3_origin {S}. Arguments r3_direction {S}.
Arguments mkBB2 {S}. Arguments bb2_min {S}. Arguments bb2_max {S}.
Arguments mkBB3 {S}. Arguments bb3_min {S}. Arguments bb3_max {S}.
Arguments mkM3 {S}.
Arguments m3_0 {S}. Arguments m3_1 {S}. Arguments m3_2 {S}. Arguments m3_3 {S}. Arguments m3_4 {S}.
Arguments m3_5 {S}. Arguments m3_6 {S}. Arguments m3_7 {S}. Arguments m3_8 {S}.
Arguments mkM4 {S}.
Arguments m4_0 {S}. Arguments m4_1 {S}. Arguments m4_2 {S}. Arguments m4_3 {S}. Arguments m4_4 {S}.
Arguments m4_5 {S}. Arguments m4_6 {S}. Arguments m4_7 {S}. Arguments m4_8 {S}. Arguments m4_9 {S}.
Arguments m4_10 {S}. Arguments m4_11 {S}. Arguments m4_12 {S}. Arguments m4_13 {S}. Arguments m4_14 {S}.
Arguments m4_15 {S}.
Arguments mkT2 {S}. Arguments t2_forward {S}. Arguments t2_inv {S}.
Arguments mkT3 {S}. Arguments t3_forward {S}. Arguments t3_inv {S}.

(** #[derive(PartialEq)]: field-wise, in declaration order. *)
Section DerivedEq.
Context {S : Type} {O : ScalarOps S}.
Local Open Scope s_scope.
Local Open Scope bool_scope.
(* src/dimension2.rs:16, src/dimension3.rs:16 *)
Definition d2_eq (a b : Dimension2) : bool :=
  match a, b with D2X, D2X | D2Y, D2Y => true | _, _ => false end.
Definition d3_eq (a b : Dimension3) : bool :=
  match a, b with D3X, D3X | D3Y, D3Y | D3Z, D3Z => true | _, _ => false end.
(* src/point2.rs:20 *)
Definition p2_eq (a b : Point2 S) : bool := (p2x a == p2x b) && (p2y a == p2y b).
(* src/vector2.rs:20 *)
Definition v2_eq (a b : Vector2 S) : bool := (v2x a == v2x b) && (v2y a == v2y b).
(* src/point3.rs:20 *)
Definition p3_eq (a b : Point3 S) : bool := (p3x a == p3x b) && (p3y a == p3y b) && (p3z a == p3z b).
(* src/vector3.rs:20 *)
Definition v3_eq (a b : Vector3 S) : bool := (v3x a == v3x b) && (v3y a == v3y b) && (v3z a == v3z b).
(* src/ray2.rs:18 *)
Definition r2_eq (a b : Ray2 S) : bool := p2_eq (r2_origin a) (r2_origin b) && v2_eq (r2_direction a) (r2_direction b).
(* src/ray3.rs:18 *)
Definition r3_eq (a b : Ray3 S) : bool := p3_eq (r3_origin a) (r3_origin b) && v3_eq (r3_direction a) (r3_direction b).
(* src/boundingbox2.rs:20 *)
Definition bb2_eq (a b : BoundingBox2 S) : bool := p2_eq (bb2_min a) (bb2_min b) && p2_eq (bb2_max a) (bb2_max b).
(* src/boundingbox3.rs:20 *)
Definition bb3_eq (a b : BoundingBox3 S) : bool := p3_eq (bb3_min a) (bb3_min b) && p3_eq (bb3_max a) (bb3_max b).
(* src/transform2.rs:21 *)
Definition m3_eq (a b : Matrix3x3 S) : bool :=
  (m3_0 a == m3_0 b) && (m3_1 a == m3_1 b) && (m3_2 a == m3_2 b) &&
  (m3_3 a == m3_3 b) && (m3_4 a == m3_4 b) && (m3_5 a == m3_5 b) &&
  (m3_6 a == m3_6 b) && (m3_7 a == m3_7 b) && (m3_8 a == m3_8 b).
(* src/transform3.rs:21 *)
Definition m4_eq (a b : Matrix4x4 S) : bool :=
  (m4_0 a == m4_0 b) && (m4_1 a == m4_1 b) && (m4_2 a == m4_2 b) && (m4_3 a == m4_3 b) &&
  (m4_4 a == m4_4 b) && (m4_5 a == m4_5 b) && (m4_6 a == m4_6 b) && (m4_7 a == m4_7 b) &&
  (m4_8 a == m4_8 b) && (m4_9 a == m4_9 b) && (m4_10 a == m4_10 b) && (m4_11 a == m4_11 b) &&
  (m4_12 a == m4_12 b) && (m4_13 a == m4_13 b) && (m4_14 a == m4_14 b) && (m4_15 a == m4_15 b).
(* src/transform2.rs:33 *)
Definition t2_eq (a b : Transform2 S) : bool := m3_eq (t2_forward a) (t2_forward b) && m3_eq (t2_inv a) (t2_inv b).
(* src/transform3.rs:33 *)
Definition t3_eq (a b : Transform3 S) : bool := m4_eq (t3_forward a) (t3_forward b) && m4_eq (t3_inv a) (t3_inv b).
End DerivedEq.
