(** Specification vocabulary for C96: where a coordinate that does not move lies relative to two faces. *)
From Verif Require Import Scalar Types SpecOrder.
Section S.
Context {S : Type} {O : ScalarOps S}.
(* the two zeros of IEEE arithmetic are told apart by 1/d *)
Definition PosZero (d : S) : Prop := Eqs d szero /\ Eqs (sdiv sone d) sinf.
Definition NegZero (d : S) : Prop := Eqs d szero /\ Eqs (sdiv sone d) sninf.
(* strictly between the faces, or on both *)
Definition Between (lo o hi : S) : Prop := (Lt lo o /\ Lt o hi) \/ (Eqs lo o /\ Eqs o hi).
(* at or below the lower face of a slab, but not above the upper / the same above *)
Definition Below (lo o hi : S) : Prop := Le o lo /\ Lt o hi.
Definition Above (lo o hi : S) : Prop := Le hi o /\ Lt lo o.
(* the slab is on the side to which the zero direction "points" / on the other side *)
Definition Ahead (lo o hi d : S) : Prop := (PosZero d /\ Below lo o hi) \/ (NegZero d /\ Above lo o hi).
Definition Behind (lo o hi d : S) : Prop := (PosZero d /\ Above lo o hi) \/ (NegZero d /\ Below lo o hi).
End S.
