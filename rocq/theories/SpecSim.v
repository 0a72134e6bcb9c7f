(** Specification vocabulary for C94: the similarities a user can build through the API, with their factor. *)
From Coq Require Import Reals.
From Verif Require Import Scalar Types Vector2 Vector3 Point2 Point3 Transform2 Transform3 XReal SpecReal SpecTrans.
Local Open Scope R_scope.

(** [Similar3 t k]: t is built from translations, rotations, look_at, uniform scalings, scalings with factors of equal
    magnitude (mirrors), and_then and inverse; |k| is the factor by which it scales distances, the sign of k tells whether it
    keeps (+) or reverses (-) handedness. *)
Inductive Similar3 : Transform3 xreal -> R -> Prop :=
| S3_identity : Similar3 t3_identity 1
| S3_translate v : Similar3 (t3_translate (XV3 v)) 1
| S3_rotate_x a : Similar3 (t3_rotate_x (Fin a)) 1
| S3_rotate_y a : Similar3 (t3_rotate_y (Fin a)) 1
| S3_rotate_z a : Similar3 (t3_rotate_z (Fin a)) 1
| S3_rotate_axis k a : k <> Rzero3 -> Similar3 (t3_rotate_axis (XV3 k) (Fin a)) 1
| S3_look_at prof from target up t : Indep3 up (Rsub3 target from) ->
    t3_look_at prof (XP3 from) (XP3 target) (XV3 up) = Ret (Ok t) -> Similar3 t 1
| S3_scale_uniform s : s <> 0 -> Similar3 (t3_scale_uniform (Fin s)) s
| S3_scale s sx sy sz : s <> 0 -> sx = s \/ sx = - s -> sy = s \/ sy = - s -> sz = s \/ sz = - s ->
    Similar3 (t3_scale (Fin sx) (Fin sy) (Fin sz)) (sx * sy * sz / (s * s))
| S3_and_then t u k l : Similar3 t k -> Similar3 u l -> Similar3 (t3_and_then t u) (k * l)
| S3_inverse t k : Similar3 t k -> Similar3 (t3_inverse t) (/ k).

(** [Similar2 t k]: the same in two dimensions; |k| is the factor. *)
Inductive Similar2 : Transform2 xreal -> R -> Prop :=
| S2_identity : Similar2 t2_identity 1
| S2_translate v : Similar2 (t2_translate (XV2 v)) 1
| S2_rotate a : Similar2 (t2_rotate (Fin a)) 1
| S2_scale_uniform s : s <> 0 -> Similar2 (t2_scale_uniform (Fin s)) s
| S2_scale s sx sy : s <> 0 -> sx = s \/ sx = - s -> sy = s \/ sy = - s -> Similar2 (t2_scale (Fin sx) (Fin sy)) s
| S2_and_then t u k l : Similar2 t k -> Similar2 u l -> Similar2 (t2_and_then t u) (k * l)
| S2_inverse t k : Similar2 t k -> Similar2 (t2_inverse t) (/ k).
