(** Specification vocabulary for structural properties: components, write histories, matrix elements, corners. *)
From Coq Require Import Bool NArith List.
From Verif Require Import Scalar Types SpecOrder.
Import ListNotations.

(* the bit of a corner index that selects min (0) or max (1) in a dimension *)
Definition bit2 (d : Dimension2) : N := match d with D2X => 0 | D2Y => 1 end%N.
Definition bit3 (d : Dimension3) : N := match d with D3X => 0 | D3Y => 1 | D3Z => 2 end%N.

Section Spec.
Context {S : Type}.

(* the scalar components of each type, in declaration order *)
Definition p2_comps (p : Point2 S) : list S := [p2x p; p2y p].
Definition p3_comps (p : Point3 S) : list S := [p3x p; p3y p; p3z p].
Definition v2_comps (v : Vector2 S) : list S := [v2x v; v2y v].
Definition v3_comps (v : Vector3 S) : list S := [v3x v; v3y v; v3z v].
Definition r2_comps (r : Ray2 S) : list S := p2_comps (r2_origin r) ++ v2_comps (r2_direction r).
Definition r3_comps (r : Ray3 S) : list S := p3_comps (r3_origin r) ++ v3_comps (r3_direction r).
Definition bb2_comps (b : BoundingBox2 S) : list S := p2_comps (bb2_min b) ++ p2_comps (bb2_max b).
Definition bb3_comps (b : BoundingBox3 S) : list S := p3_comps (bb3_min b) ++ p3_comps (bb3_max b).
Definition m3_comps (m : Matrix3x3 S) : list S :=
  [m3_0 m; m3_1 m; m3_2 m; m3_3 m; m3_4 m; m3_5 m; m3_6 m; m3_7 m; m3_8 m].
Definition m4_comps (m : Matrix4x4 S) : list S :=
  [m4_0 m; m4_1 m; m4_2 m; m4_3 m; m4_4 m; m4_5 m; m4_6 m; m4_7 m;
   m4_8 m; m4_9 m; m4_10 m; m4_11 m; m4_12 m; m4_13 m; m4_14 m; m4_15 m].
Definition t2_comps (t : Transform2 S) : list S := m3_comps (t2_forward t) ++ m3_comps (t2_inv t).
Definition t3_comps (t : Transform3 S) : list S := m4_comps (t3_forward t) ++ m4_comps (t3_inv t).

(* A history of writes to a keyed store.  The value of key [k] after the history, when it was [v] before. *)
Fixpoint replay {K : Type} (keq : K -> K -> bool) (history : list (K * (S -> S))) (k : K) (v : S) : S :=
  match history with
  | [] => v
  | (k', f) :: rest => replay keq rest k (if keq k' k then f v else v)
  end.
End Spec.

Section SpecEq.
Context {S : Type} {O : ScalarOps S}.
(* a boolean relation that is component-wise Eqs *)
Definition derived_eq {T : Type} (eqb : T -> T -> bool) (comps : T -> list S) : Prop :=
  (forall a b, eqb a b = true <-> Forall2 Eqs (comps a) (comps b)) /\
  (forall a b, eqb a b = eqb b a) /\
  (forall a b c, eqb a b = true -> eqb b c = true -> eqb a c = true) /\
  (forall a, eqb a a = true <-> Forall NoNaN (comps a)).
End SpecEq.

(* row-major keys of a matrix *)
Definition rc_eq (a b : N * N) : bool := (fst a =? fst b)%N && (snd a =? snd b)%N.
Definition in_range (n : N) (k : N * N) : Prop := (fst k < n)%N /\ (snd k < n)%N.

(* run a list of possibly panicking steps *)
Fixpoint run {A B : Type} (step : A -> B -> outcome A) (a : A) (l : list B) : outcome A :=
  match l with
  | [] => Ret a
  | b :: rest => let* a' := step a b in run step a' rest
  end.

(* the two standard Cargo profiles *)
Definition dev_profile : profile := {| debug_assertions := true; overflow_checks := true |}.
Definition release_profile : profile := {| debug_assertions := false; overflow_checks := false |}.
