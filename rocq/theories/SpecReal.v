(** Specification vocabulary for exact arithmetic: finite real inputs, Euclidean geometry, matrices of reals.
    Uses none of the model's operations. *)
From Coq Require Import Reals List.
From Verif Require Import Scalar Types XReal.
Import ListNotations.
Local Open Scope R_scope.

(** ** Finite inputs: real tuples read as (finite) values of the exact scalar type *)
Definition XP2 (p : Point2 R) : Point2 xreal := mkPoint2 (Fin (p2x p)) (Fin (p2y p)).
Definition XP3 (p : Point3 R) : Point3 xreal := mkPoint3 (Fin (p3x p)) (Fin (p3y p)) (Fin (p3z p)).
Definition XV2 (v : Vector2 R) : Vector2 xreal := mkVector2 (Fin (v2x v)) (Fin (v2y v)).
Definition XV3 (v : Vector3 R) : Vector3 xreal := mkVector3 (Fin (v3x v)) (Fin (v3y v)) (Fin (v3z v)).
Definition XR2 (r : Ray2 R) : Ray2 xreal := mkRay2 (XP2 (r2_origin r)) (XV2 (r2_direction r)).
Definition XR3 (r : Ray3 R) : Ray3 xreal := mkRay3 (XP3 (r3_origin r)) (XV3 (r3_direction r)).
Definition XB2 (b : BoundingBox2 R) : BoundingBox2 xreal := mkBB2 (XP2 (bb2_min b)) (XP2 (bb2_max b)).
Definition XB3 (b : BoundingBox3 R) : BoundingBox3 xreal := mkBB3 (XP3 (bb3_min b)) (XP3 (bb3_max b)).
Definition XM3 (m : Matrix3x3 R) : Matrix3x3 xreal :=
  mkM3 (Fin (m3_0 m)) (Fin (m3_1 m)) (Fin (m3_2 m)) (Fin (m3_3 m)) (Fin (m3_4 m)) (Fin (m3_5 m))
       (Fin (m3_6 m)) (Fin (m3_7 m)) (Fin (m3_8 m)).
Definition XM4 (m : Matrix4x4 R) : Matrix4x4 xreal :=
  mkM4 (Fin (m4_0 m)) (Fin (m4_1 m)) (Fin (m4_2 m)) (Fin (m4_3 m)) (Fin (m4_4 m)) (Fin (m4_5 m))
       (Fin (m4_6 m)) (Fin (m4_7 m)) (Fin (m4_8 m)) (Fin (m4_9 m)) (Fin (m4_10 m)) (Fin (m4_11 m))
       (Fin (m4_12 m)) (Fin (m4_13 m)) (Fin (m4_14 m)) (Fin (m4_15 m)).
Definition XT2 (t : Transform2 R) : Transform2 xreal := mkT2 (XM3 (t2_forward t)) (XM3 (t2_inv t)).
Definition XT3 (t : Transform3 R) : Transform3 xreal := mkT3 (XM4 (t3_forward t)) (XM4 (t3_inv t)).

(** ** Euclidean geometry over the reals *)
Definition Rdot2 (a b : Vector2 R) : R := v2x a * v2x b + v2y a * v2y b.
Definition Rdot3 (a b : Vector3 R) : R := v3x a * v3x b + v3y a * v3y b + v3z a * v3z b.
Definition Rnorm2 (a : Vector2 R) : R := sqrt (v2x a ^ 2 + v2y a ^ 2).
Definition Rnorm3 (a : Vector3 R) : R := sqrt (v3x a ^ 2 + v3y a ^ 2 + v3z a ^ 2).
Definition Rdist2 (p q : Point2 R) : R := sqrt ((p2x p - p2x q) ^ 2 + (p2y p - p2y q) ^ 2).
Definition Rdist3 (p q : Point3 R) : R := sqrt ((p3x p - p3x q) ^ 2 + (p3y p - p3y q) ^ 2 + (p3z p - p3z q) ^ 2).
Definition Rzero2 : Vector2 R := mkVector2 0 0.
Definition Rzero3 : Vector3 R := mkVector3 0 0 0.

(** ** Square matrices of reals as functions of row and column *)
Definition matrix := nat -> nat -> R.
(* sum of f 0 .. f (n-1) *)
Fixpoint sum_n (n : nat) (f : nat -> R) : R := match n with O => 0 | S k => sum_n k f + f k end.
Definition mat_mul (n : nat) (a b : matrix) : matrix := fun r c => sum_n n (fun k => a r k * b k c).
Definition mat_id : matrix := fun r c => if Nat.eqb r c then 1 else 0.
Definition mat_eq (n : nat) (a b : matrix) : Prop := forall r c, (r < n)%nat -> (c < n)%nat -> a r c = b r c.
(* delete row 0 and column c *)
Definition mat_minor (m : matrix) (c : nat) : matrix :=
  fun i j => m (S i) (if Nat.ltb j c then j else S j).
(* determinant by Laplace expansion along row 0 *)
Fixpoint mat_det (n : nat) (m : matrix) : R :=
  match n with
  | O => 1
  | S k => sum_n n (fun c => (-1) ^ c * m 0%nat c * mat_det k (mat_minor m c))
  end.
(* element (r, c) of a row-major matrix *)
Definition ent3 (m : Matrix3x3 R) : matrix := fun r c =>
  nth (3 * r + c) [m3_0 m; m3_1 m; m3_2 m; m3_3 m; m3_4 m; m3_5 m; m3_6 m; m3_7 m; m3_8 m] 0.
Definition ent4 (m : Matrix4x4 R) : matrix := fun r c =>
  nth (4 * r + c) [m4_0 m; m4_1 m; m4_2 m; m4_3 m; m4_4 m; m4_5 m; m4_6 m; m4_7 m;
                   m4_8 m; m4_9 m; m4_10 m; m4_11 m; m4_12 m; m4_13 m; m4_14 m; m4_15 m] 0.

(** ** Homogeneous coordinates *)
(* matrix times column *)
Definition mat_apply (n : nat) (a : matrix) (x : nat -> R) : nat -> R := fun r => sum_n n (fun k => a r k * x k).
(* a point has homogeneous coordinate 1, a vector 0 *)
Definition hom2 (p : Point2 R) : nat -> R := fun k => nth k [p2x p; p2y p; 1] 0.
Definition hom3 (p : Point3 R) : nat -> R := fun k => nth k [p3x p; p3y p; p3z p; 1] 0.
Definition dir2 (v : Vector2 R) : nat -> R := fun k => nth k [v2x v; v2y v; 0] 0.
Definition dir3 (v : Vector3 R) : nat -> R := fun k => nth k [v3x v; v3y v; v3z v; 0] 0.
(* the homogeneous weight of the image of a point *)
Definition weight2 (m : Matrix3x3 R) (p : Point2 R) : R := mat_apply 3 (ent3 m) (hom2 p) 2.
Definition weight3 (m : Matrix4x4 R) (p : Point3 R) : R := mat_apply 4 (ent4 m) (hom3 p) 3.
(* the image of a point: divide by the weight *)
Definition dehom2 (x : nat -> R) : Point2 R := mkPoint2 (x 0%nat / x 2%nat) (x 1%nat / x 2%nat).
Definition dehom3 (x : nat -> R) : Point3 R := mkPoint3 (x 0%nat / x 3%nat) (x 1%nat / x 3%nat) (x 2%nat / x 3%nat).
Definition img2 (m : Matrix3x3 R) (p : Point2 R) : Point2 R := dehom2 (mat_apply 3 (ent3 m) (hom2 p)).
Definition img3 (m : Matrix4x4 R) (p : Point3 R) : Point3 R := dehom3 (mat_apply 4 (ent4 m) (hom3 p)).
(* last row 0 .. 0 1 *)
Definition affine2 (m : Matrix3x3 R) : Prop := m3_6 m = 0 /\ m3_7 m = 0 /\ m3_8 m = 1.
Definition affine3 (m : Matrix4x4 R) : Prop := m4_12 m = 0 /\ m4_13 m = 0 /\ m4_14 m = 0 /\ m4_15 m = 1.
