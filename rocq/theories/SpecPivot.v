(** Specification vocabulary for C124: a client of the crate.  A transform applied about a pivot point. *)
From Verif Require Import Scalar Types Vector2 Vector3 Point2 Point3 Transform2 Transform3.
Section A.
Context {S : Type} {O : ScalarOps S}.
(* move the pivot c to the origin, transform, move back *)
Definition about2 (c : Point2 S) (t : Transform2 S) : Transform2 S :=
  t2_and_then (t2_and_then (t2_translate (p2_sub p2_origin c)) t) (t2_translate (p2_sub c p2_origin)).
(* move the pivot c to the origin, transform, move back *)
Definition about3 (c : Point3 S) (t : Transform3 S) : Transform3 S :=
  t3_and_then (t3_and_then (t3_translate (p3_sub p3_origin c)) t) (t3_translate (p3_sub c p3_origin)).
End A.
