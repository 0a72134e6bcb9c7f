(** Specification vocabulary for C114: a client of the crate that sorts points into the cells of a uniform grid of spacing [h]. *)
From Coq Require Import List Reals.
From Verif Require Import Scalar Types Vector2 Vector3 Point2 Point3 Ray BoundingBox2 BoundingBox3 Arith SpecOrder SpecFloat SpecErr.
Section S.
Context {S : Type} {O : ScalarOps S}.
(* the cell of a point: (p / h).floor() *)
Definition key2 (h : S) (p : Point2 S) : Point2 S := p2_floor (p2_div p h).
Definition key3 (h : S) (p : Point3 S) : Point3 S := p3_floor (p3_div p h).
(* the range of cells of a box *)
Definition cells2 (h : S) (b : BoundingBox2 S) : BoundingBox2 S := bb2_new (key2 h (bb2_min b)) (key2 h (bb2_max b)).
Definition cells3 (h : S) (b : BoundingBox3 S) : BoundingBox3 S := bb3_new (key3 h (bb3_min b)) (key3 h (bb3_max b)).
(* box query: look only at the points whose cell is in the range of cells of the box *)
Definition grid_query2 (h : S) (b : BoundingBox2 S) (l : list (Point2 S)) : list (Point2 S) :=
  filter (bb2_is_inside b) (filter (fun p => bb2_is_inside (cells2 h b) (key2 h p)) l).
Definition grid_query3 (h : S) (b : BoundingBox3 S) (l : list (Point3 S)) : list (Point3 S) :=
  filter (bb3_is_inside b) (filter (fun p => bb3_is_inside (cells3 h b) (key3 h p)) l).
End S.
(* a spacing: finite and positive *)
Definition Spacing {A : arith} (h : num A) : Prop := Finite h /\ (0 < real_of h)%R.
