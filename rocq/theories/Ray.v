(** Model of src/ray2.rs and src/ray3.rs. *)
From Verif Require Import Scalar Types Vector2 Vector3 Point2 Point3.

Section M.
Context {S : Type} {O : ScalarOps S}.

(* src/ray2.rs:48-52  new *)
Definition r2_new (origin : Point2 S) (direction : Vector2 S) : Ray2 S := mkRay2 origin direction.
(* src/ray2.rs:54-58  at *)
Definition r2_at (self : Ray2 S) (distance : S) : Point2 S :=
  p2_add (r2_origin self) (v2_mul (r2_direction self) distance).
(* src/ray3.rs:48-52  new *)
Definition r3_new (origin : Point3 S) (direction : Vector3 S) : Ray3 S := mkRay3 origin direction.
(* src/ray3.rs:54-58  at *)
Definition r3_at (self : Ray3 S) (distance : S) : Point3 S :=
  p3_add (r3_origin self) (v3_mul (r3_direction self) distance).
End M.
