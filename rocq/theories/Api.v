(** Model of the crate's traits and free functions: src/minmax.rs, src/length.rs, src/distance.rs, src/dot.rs, src/cross.rs,
    src/union.rs, src/intersection.rs, src/transform.rs, and the constructor functions of src/point2.rs, src/point3.rs,
    src/vector2.rs, src/vector3.rs, src/ray2.rs, src/ray3.rs.
    A trait is a class of operations (no laws); an associated type [Output] is a class parameter; an [impl] is an instance. *)
From Coq Require Import Bool NArith.
From Verif Require Import Scalar Types Vector2 Vector3 Point2 Point3 Ray BoundingBox2 BoundingBox3 Transform2 Transform3.

(* src/minmax.rs:16-22  trait MinMax *)
Class MinMax (T : Type) := { tr_min : T -> T -> T; tr_max : T -> T -> T }.
(* src/minmax.rs:24-28  pub fn min *)
Definition api_min {T} {I : MinMax T} (value other : T) : T := tr_min value other.
(* src/minmax.rs:30-34  pub fn max *)
Definition api_max {T} {I : MinMax T} (value other : T) : T := tr_max value other.

(* src/length.rs:15-22  trait Length *)
Class Length (T Output : Type) := { tr_length : T -> Output }.
(* src/length.rs:24-28  pub fn length *)
Definition api_length {T Output} {I : Length T Output} (value : T) : Output := tr_length value.
(* src/length.rs:30-43  trait RelativeLength *)
Class RelativeLength (T : Type) := {
  tr_is_shorter_than : T -> T -> bool; tr_is_longer_than : T -> T -> bool;
  tr_shortest : T -> T -> T; tr_longest : T -> T -> T }.
(* src/length.rs:45-49  pub fn shortest *)
Definition api_shortest {T} {I : RelativeLength T} (value other : T) : T := tr_shortest value other.
(* src/length.rs:51-55  pub fn longest *)
Definition api_longest {T} {I : RelativeLength T} (value other : T) : T := tr_longest value other.

(* src/distance.rs:15-22  trait Distance *)
Class Distance (T Output : Type) := { tr_distance : T -> T -> Output }.
(* src/distance.rs:24-28  pub fn distance *)
Definition api_distance {T Output} {I : Distance T Output} (value other : T) : Output := tr_distance value other.
(* src/distance.rs:30-43  trait RelativeDistance *)
Class RelativeDistance (T : Type) := {
  tr_is_closer_to : T -> T -> T -> bool; tr_is_farther_from : T -> T -> T -> bool;
  tr_closest : T -> T -> T -> T; tr_farthest : T -> T -> T -> T }.
(* src/distance.rs:45-49  pub fn closest *)
Definition api_closest {T} {I : RelativeDistance T} (value a b : T) : T := tr_closest value a b.
(* src/distance.rs:51-55  pub fn farthest *)
Definition api_farthest {T} {I : RelativeDistance T} (value a b : T) : T := tr_farthest value a b.

(* src/dot.rs:15-22  trait DotProduct; 24-28  pub fn dot *)
Class DotProduct (T U Output : Type) := { tr_dot : T -> U -> Output }.
Definition api_dot {T U Output} {I : DotProduct T U Output} (value : T) (other : U) : Output := tr_dot value other.
(* src/cross.rs:15-22  trait CrossProduct; 24-28  pub fn cross *)
Class CrossProduct (T U Output : Type) := { tr_cross : T -> U -> Output }.
Definition api_cross {T U Output} {I : CrossProduct T U Output} (value : T) (other : U) : Output := tr_cross value other.
(* src/union.rs:15-22  trait Union; 24-28  pub fn union *)
Class Union (T U Output : Type) := { tr_union : T -> U -> Output }.
Definition api_union {T U Output} {I : Union T U Output} (value : T) (other : U) : Output := tr_union value other.
(* src/intersection.rs:15-24  trait Intersection; 26-32  pub fn intersect *)
Class Intersection (T U Output : Type) := { tr_intersect : T -> U -> option Output }.
Definition api_intersect {T U Output} {I : Intersection T U Output} (value : T) (other : U) : option Output := tr_intersect value other.
(* src/transform.rs:15-22  trait Transform<T> *)
Class Transform (X T Output : Type) := { tr_transform : X -> T -> Output }.

Section Impl.
Context {S : Type} {O : ScalarOps S}.
(* src/scalar.rs:61-71, src/vector2.rs:168-180, src/vector3.rs:178-190, src/point2.rs:141-153, src/point3.rs:144-156 *)
Global Instance MinMax_S : MinMax S := {| tr_min := s_min; tr_max := s_max |}.
Global Instance MinMax_V2 : MinMax (Vector2 S) := {| tr_min := v2_min; tr_max := v2_max |}.
Global Instance MinMax_V3 : MinMax (Vector3 S) := {| tr_min := v3_min; tr_max := v3_max |}.
Global Instance MinMax_P2 : MinMax (Point2 S) := {| tr_min := p2_min; tr_max := p2_max |}.
Global Instance MinMax_P3 : MinMax (Point3 S) := {| tr_min := p3_min; tr_max := p3_max |}.
(* src/scalar.rs:73-80, src/vector2.rs:182-190, src/vector3.rs:192-200 *)
Global Instance Length_S : Length S S := {| tr_length := s_length |}.
Global Instance Length_V2 : Length (Vector2 S) S := {| tr_length := v2_length |}.
Global Instance Length_V3 : Length (Vector3 S) S := {| tr_length := v3_length |}.
(* src/scalar.rs:82-102, src/vector2.rs:192-228, src/vector3.rs:202-238 *)
Global Instance RelativeLength_S : RelativeLength S :=
  {| tr_is_shorter_than := s_is_shorter_than; tr_is_longer_than := s_is_longer_than; tr_shortest := s_shortest; tr_longest := s_longest |}.
Global Instance RelativeLength_V2 : RelativeLength (Vector2 S) :=
  {| tr_is_shorter_than := v2_is_shorter_than; tr_is_longer_than := v2_is_longer_than; tr_shortest := v2_shortest; tr_longest := v2_longest |}.
Global Instance RelativeLength_V3 : RelativeLength (Vector3 S) :=
  {| tr_is_shorter_than := v3_is_shorter_than; tr_is_longer_than := v3_is_longer_than; tr_shortest := v3_shortest; tr_longest := v3_longest |}.
(* src/scalar.rs:104-111, src/point2.rs:155-163, src/point3.rs:158-166 *)
Global Instance Distance_S : Distance S S := {| tr_distance := s_distance |}.
Global Instance Distance_P2 : Distance (Point2 S) S := {| tr_distance := p2_distance |}.
Global Instance Distance_P3 : Distance (Point3 S) S := {| tr_distance := p3_distance |}.
(* src/scalar.rs:113-133, src/point2.rs:165-203, src/point3.rs:168-206 *)
Global Instance RelativeDistance_S : RelativeDistance S :=
  {| tr_is_closer_to := s_is_closer_to; tr_is_farther_from := s_is_farther_from; tr_closest := s_closest; tr_farthest := s_farthest |}.
Global Instance RelativeDistance_P2 : RelativeDistance (Point2 S) :=
  {| tr_is_closer_to := p2_is_closer_to; tr_is_farther_from := p2_is_farther_from; tr_closest := p2_closest; tr_farthest := p2_farthest |}.
Global Instance RelativeDistance_P3 : RelativeDistance (Point3 S) :=
  {| tr_is_closer_to := p3_is_closer_to; tr_is_farther_from := p3_is_farther_from; tr_closest := p3_closest; tr_farthest := p3_farthest |}.
(* src/vector2.rs:230-238, src/vector3.rs:240-248; src/vector3.rs:250-258  impl CrossProduct *)
Global Instance DotProduct_V2 : DotProduct (Vector2 S) (Vector2 S) S := {| tr_dot := v2_dot |}.
Global Instance DotProduct_V3 : DotProduct (Vector3 S) (Vector3 S) S := {| tr_dot := v3_dot |}.
Global Instance CrossProduct_V3 : CrossProduct (Vector3 S) (Vector3 S) (Vector3 S) := {| tr_cross := v3_cross |}.
(* src/boundingbox2.rs:150-172, src/boundingbox3.rs:167-189  impl Union *)
Global Instance Union_B2 : Union (BoundingBox2 S) (BoundingBox2 S) (BoundingBox2 S) := {| tr_union := bb2_union |}.
Global Instance Union_B2P : Union (BoundingBox2 S) (Point2 S) (BoundingBox2 S) := {| tr_union := bb2_union_point |}.
Global Instance Union_B3 : Union (BoundingBox3 S) (BoundingBox3 S) (BoundingBox3 S) := {| tr_union := bb3_union |}.
Global Instance Union_B3P : Union (BoundingBox3 S) (Point3 S) (BoundingBox3 S) := {| tr_union := bb3_union_point |}.
(* src/boundingbox2.rs:174-223, src/boundingbox3.rs:191-250  impl Intersection; Range<S> is a pair (start, end) *)
Global Instance Intersection_B2 : Intersection (BoundingBox2 S) (BoundingBox2 S) (BoundingBox2 S) := {| tr_intersect := bb2_intersect |}.
Global Instance Intersection_B2R : Intersection (BoundingBox2 S) (Ray2 S) (S * S) := {| tr_intersect := bb2_intersect_ray |}.
Global Instance Intersection_B3 : Intersection (BoundingBox3 S) (BoundingBox3 S) (BoundingBox3 S) := {| tr_intersect := bb3_intersect |}.
Global Instance Intersection_B3R : Intersection (BoundingBox3 S) (Ray3 S) (S * S) := {| tr_intersect := bb3_intersect_ray |}.
(* src/transform2.rs:355-404, src/transform3.rs:476-527  impl Transform *)
Global Instance Transform_P2 : Transform (Transform2 S) (Point2 S) (Point2 S) := {| tr_transform := t2_transform_point |}.
Global Instance Transform_V2 : Transform (Transform2 S) (Vector2 S) (Vector2 S) := {| tr_transform := t2_transform_vector |}.
Global Instance Transform_R2 : Transform (Transform2 S) (Ray2 S) (Ray2 S) := {| tr_transform := t2_transform_ray |}.
Global Instance Transform_B2 : Transform (Transform2 S) (BoundingBox2 S) (BoundingBox2 S) := {| tr_transform := t2_transform_bb |}.
Global Instance Transform_P3 : Transform (Transform3 S) (Point3 S) (Point3 S) := {| tr_transform := t3_transform_point |}.
Global Instance Transform_V3 : Transform (Transform3 S) (Vector3 S) (Vector3 S) := {| tr_transform := t3_transform_vector |}.
Global Instance Transform_R3 : Transform (Transform3 S) (Ray3 S) (Ray3 S) := {| tr_transform := t3_transform_ray |}.
Global Instance Transform_B3 : Transform (Transform3 S) (BoundingBox3 S) (BoundingBox3 S) := {| tr_transform := t3_transform_bb |}.
End Impl.

Section Ctor.
Context {S : Type}.
(* src/point2.rs:31-45  point2, point2f, point2d (the last two are instances); same for the others:
   src/point3.rs:32-46, src/vector2.rs:31-45, src/vector3.rs:32-46, src/ray2.rs:29-43, src/ray3.rs:29-43 *)
Definition api_point2 (x y : S) : Point2 S := p2_new x y.
Definition api_point3 (x y z : S) : Point3 S := p3_new x y z.
Definition api_vector2 (x y : S) : Vector2 S := v2_new x y.
Definition api_vector3 (x y z : S) : Vector3 S := v3_new x y z.
Definition api_ray2 (origin : Point2 S) (direction : Vector2 S) : Ray2 S := r2_new origin direction.
Definition api_ray3 (origin : Point3 S) (direction : Vector3 S) : Ray3 S := r3_new origin direction.
End Ctor.
