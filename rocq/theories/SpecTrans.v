(** Specification vocabulary for transforms in exact arithmetic: the transforms a user can build through the API,
    and successive application of a list of transforms. *)
From Coq Require Import Reals List.
From Verif Require Import Scalar Types Vector2 Vector3 Point2 Point3 Transform2 Transform3 XReal SpecReal.
Import ListNotations.
Local Open Scope R_scope.

(* two linearly independent vectors: both non-zero and not parallel *)
Definition Indep3 (u v : Vector3 R) : Prop :=
  forall s t, s * v3x u + t * v3x v = 0 -> s * v3y u + t * v3y v = 0 -> s * v3z u + t * v3z v = 0 -> s = 0 /\ t = 0.
(* the vector from p to q *)
Definition Rsub3 (q p : Point3 R) : Vector3 R := mkVector3 (p3x q - p3x p) (p3y q - p3y p) (p3z q - p3z p).

(** Every transform built from finite parameters by the constructors, try_from (on matrices satisfying [ok]),
    and any finite combination of and_then and inverse. *)
Inductive Built2 (ok : Matrix3x3 R -> Prop) : Transform2 xreal -> Prop :=
| B2_identity : Built2 ok t2_identity
| B2_translate v : Built2 ok (t2_translate (XV2 v))
| B2_rotate a : Built2 ok (t2_rotate (Fin a))
| B2_scale sx sy : sx <> 0 -> sy <> 0 -> Built2 ok (t2_scale (Fin sx) (Fin sy))
| B2_scale_uniform s : s <> 0 -> Built2 ok (t2_scale_uniform (Fin s))
| B2_try_from m t : ok m -> t2_try_from (XM3 m) = Ok t -> Built2 ok t
| B2_and_then t u : Built2 ok t -> Built2 ok u -> Built2 ok (t2_and_then t u)
| B2_inverse t : Built2 ok t -> Built2 ok (t2_inverse t).
Inductive Built3 (ok : Matrix4x4 R -> Prop) : Transform3 xreal -> Prop :=
| B3_identity : Built3 ok t3_identity
| B3_translate v : Built3 ok (t3_translate (XV3 v))
| B3_rotate_x a : Built3 ok (t3_rotate_x (Fin a))
| B3_rotate_y a : Built3 ok (t3_rotate_y (Fin a))
| B3_rotate_z a : Built3 ok (t3_rotate_z (Fin a))
| B3_rotate_axis k a : k <> Rzero3 -> Built3 ok (t3_rotate_axis (XV3 k) (Fin a))
| B3_scale sx sy sz : sx <> 0 -> sy <> 0 -> sz <> 0 -> Built3 ok (t3_scale (Fin sx) (Fin sy) (Fin sz))
| B3_scale_uniform s : s <> 0 -> Built3 ok (t3_scale_uniform (Fin s))
| B3_look_at prof from target up t : Indep3 up (Rsub3 target from) ->
    t3_look_at prof (XP3 from) (XP3 target) (XV3 up) = Ret (Ok t) -> Built3 ok t
| B3_try_from prof m t : ok m -> t3_try_from prof (XM4 m) = Ret (Ok t) -> Built3 ok t
| B3_and_then t u : Built3 ok t -> Built3 ok u -> Built3 ok (t3_and_then t u)
| B3_inverse t : Built3 ok t -> Built3 ok (t3_inverse t).

(** No homogeneous weight vanishes while a point passes through a list of transforms. *)
Fixpoint path_ok2 (l : list (Transform2 R)) (p : Point2 R) : Prop :=
  match l with
  | [] => True
  | t :: l => weight2 (t2_forward t) p <> 0 /\ path_ok2 l (img2 (t2_forward t) p)
  end.
Fixpoint path_ok3 (l : list (Transform3 R)) (p : Point3 R) : Prop :=
  match l with
  | [] => True
  | t :: l => weight3 (t3_forward t) p <> 0 /\ path_ok3 l (img3 (t3_forward t) p)
  end.
