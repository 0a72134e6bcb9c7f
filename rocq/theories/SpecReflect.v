(** Specification vocabulary for C121: clients of the crate.  The projection of v on n, the mirror image of v in the plane with normal n,
    the parameter of the foot of the perpendicular from p to the line of a ray, and the nearest point of the ray. *)
From Verif Require Import Scalar Types Vector2 Vector3 Point2 Point3 Ray.
Section A.
Context {S : Type} {O : ScalarOps S}.
Definition project2 (v n : Vector2 S) : Vector2 S := v2_mul n (sdiv (v2_dot v n) (v2_dot n n)).
Definition reflect2 (v n : Vector2 S) : Vector2 S := v2_sub v (v2_mul n (smul stwo (sdiv (v2_dot v n) (v2_dot n n)))).
Definition foot2 (r : Ray2 S) (p : Point2 S) : S := sdiv (v2_dot (p2_sub p (r2_origin r)) (r2_direction r)) (v2_dot (r2_direction r) (r2_direction r)).
Definition nearest_on2 (r : Ray2 S) (p : Point2 S) : Point2 S := if sle szero (foot2 r p) then r2_at r (foot2 r p) else r2_origin r.
Definition project3 (v n : Vector3 S) : Vector3 S := v3_mul n (sdiv (v3_dot v n) (v3_dot n n)).
Definition reflect3 (v n : Vector3 S) : Vector3 S := v3_sub v (v3_mul n (smul stwo (sdiv (v3_dot v n) (v3_dot n n)))).
Definition foot3 (r : Ray3 S) (p : Point3 S) : S := sdiv (v3_dot (p3_sub p (r3_origin r)) (r3_direction r)) (v3_dot (r3_direction r) (r3_direction r)).
Definition nearest_on3 (r : Ray3 S) (p : Point3 S) : Point3 S := if sle szero (foot3 r p) then r3_at r (foot3 r p) else r3_origin r.
End A.
