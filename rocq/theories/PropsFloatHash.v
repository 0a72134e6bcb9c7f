(** Theorems: C114 (points in the cells of a uniform grid).
    [A] ranges over f32 and f64 on every platform, and exact reals extended with infinities and NaN. *)
From Coq Require Import Bool NArith ZArith Reals List Lra.
From Verif Require Import Scalar Types Vector2 Vector3 Point2 Point3 Ray BoundingBox2 BoundingBox3 Float XReal Arith SpecOrder SpecFloat SpecErr SpecSnap SpecHash ExVals FloatHash.
Import ListNotations.
Local Open Scope R_scope.
(** a point of a box lies in a cell in the range of cells of the box, and cells have whole coordinates *)
Theorem C114_cell_of_point_2d : forall (A : arith) (h : num A) (b : BoundingBox2 (num A)) (p : Point2 (num A)), Spacing h -> bb2_is_inside b p = true ->
  bb2_is_inside (cells2 h b) (key2 h p) = true /\ Integral2 (key2 h p).
Proof. exact C114_cell_of_point_2d_pf. Qed.
Print Assumptions C114_cell_of_point_2d.
Theorem C114_cell_of_point_3d : forall (A : arith) (h : num A) (b : BoundingBox3 (num A)) (p : Point3 (num A)), Spacing h -> bb3_is_inside b p = true ->
  bb3_is_inside (cells3 h b) (key3 h p) = true /\ Integral3 (key3 h p).
Proof. exact C114_cell_of_point_3d_pf. Qed.
Print Assumptions C114_cell_of_point_3d.
(** a larger box has a larger range of cells, and overlapping boxes share a cell *)
Theorem C114_cells_of_box_2d : forall (A : arith) (h : num A) (a b : BoundingBox2 (num A)), Spacing h -> Ordered2 a -> Ordered2 b ->
  Ordered2 (cells2 h a) /\ IntBox2 (cells2 h a) /\ (Incl2 a b -> Incl2 (cells2 h a) (cells2 h b)) /\ (bb2_overlaps a b = true -> bb2_overlaps (cells2 h a) (cells2 h b) = true).
Proof. exact C114_cells_of_box_2d_pf. Qed.
Print Assumptions C114_cells_of_box_2d.
Theorem C114_cells_of_box_3d : forall (A : arith) (h : num A) (a b : BoundingBox3 (num A)), Spacing h -> Ordered3 a -> Ordered3 b ->
  Ordered3 (cells3 h a) /\ IntBox3 (cells3 h a) /\ (Incl3 a b -> Incl3 (cells3 h a) (cells3 h b)) /\ (bb3_overlaps a b = true -> bb3_overlaps (cells3 h a) (cells3 h b) = true).
Proof. exact C114_cells_of_box_3d_pf. Qed.
Print Assumptions C114_cells_of_box_3d.
(** a box query that only looks at points whose cell is in the range of cells of the box finds all the points in the box *)
Theorem C114_box_query_2d : forall (A : arith) (h : num A) (b : BoundingBox2 (num A)) (l : list (Point2 (num A))), Spacing h -> grid_query2 h b l = filter (bb2_is_inside b) l.
Proof. exact C114_box_query_2d_pf. Qed.
Print Assumptions C114_box_query_2d.
Theorem C114_box_query_3d : forall (A : arith) (h : num A) (b : BoundingBox3 (num A)) (l : list (Point3 (num A))), Spacing h -> grid_query3 h b l = filter (bb3_is_inside b) l.
Proof. exact C114_box_query_3d_pf. Qed.
Print Assumptions C114_box_query_3d.
(** points at most one spacing apart along an axis are in the same or in neighbouring cells along it, points in the same cell less than 2 spacings apart (up to 2^22 cells from the origin) *)
Theorem C114_neighbours_2d : forall (A : arith) (h : num A) (p q : Point2 (num A)) (d : Dimension2), Spacing h -> Finite2 p -> Finite2 q ->
  Rabs (real_of (coord2 p d)) <= 2 ^ 22 * real_of h -> Rabs (real_of (coord2 q d)) <= 2 ^ 22 * real_of h ->
  let x := coord2 (key2 h p) d in let y := coord2 (key2 h q) d in Finite x /\ Finite y /\
  (Rabs (real_of (coord2 p d) - real_of (coord2 q d)) <= real_of h -> Rabs (real_of x - real_of y) <= 1) /\
  (real_of x = real_of y -> Rabs (real_of (coord2 p d) - real_of (coord2 q d)) < 2 * real_of h).
Proof. exact C114_neighbours_2d_pf. Qed.
Print Assumptions C114_neighbours_2d.
Theorem C114_neighbours_3d : forall (A : arith) (h : num A) (p q : Point3 (num A)) (d : Dimension3), Spacing h -> Finite3 p -> Finite3 q ->
  Rabs (real_of (coord3 p d)) <= 2 ^ 22 * real_of h -> Rabs (real_of (coord3 q d)) <= 2 ^ 22 * real_of h ->
  let x := coord3 (key3 h p) d in let y := coord3 (key3 h q) d in Finite x /\ Finite y /\
  (Rabs (real_of (coord3 p d) - real_of (coord3 q d)) <= real_of h -> Rabs (real_of x - real_of y) <= 1) /\
  (real_of x = real_of y -> Rabs (real_of (coord3 p d) - real_of (coord3 q d)) < 2 * real_of h).
Proof. exact C114_neighbours_3d_pf. Qed.
Print Assumptions C114_neighbours_3d.
(** in exact arithmetic, at any distance from the origin; points in the same cell are less than 1 spacing apart *)
Theorem C114_neighbours_exact_2d : forall (h : num EXACT) (p q : Point2 (num EXACT)) (d : Dimension2), Spacing h -> Finite2 p -> Finite2 q ->
  let x := coord2 (key2 h p) d in let y := coord2 (key2 h q) d in Finite x /\ Finite y /\
  (Rabs (real_of (coord2 p d) - real_of (coord2 q d)) <= real_of h -> Rabs (real_of x - real_of y) <= 1) /\
  (real_of x = real_of y -> Rabs (real_of (coord2 p d) - real_of (coord2 q d)) < real_of h).
Proof. exact C114_neighbours_exact_2d_pf. Qed.
Print Assumptions C114_neighbours_exact_2d.
Theorem C114_neighbours_exact_3d : forall (h : num EXACT) (p q : Point3 (num EXACT)) (d : Dimension3), Spacing h -> Finite3 p -> Finite3 q ->
  let x := coord3 (key3 h p) d in let y := coord3 (key3 h q) d in Finite x /\ Finite y /\
  (Rabs (real_of (coord3 p d) - real_of (coord3 q d)) <= real_of h -> Rabs (real_of x - real_of y) <= 1) /\
  (real_of x = real_of y -> Rabs (real_of (coord3 p d) - real_of (coord3 q d)) < real_of h).
Proof. exact C114_neighbours_exact_3d_pf. Qed.
Print Assumptions C114_neighbours_exact_3d.
(* the hypotheses are met: spacing 3, the points (7, -1) and (5, 1) in the cells (2, -1) and (1, 0), a query that finds one point of two *)
Lemma spacing3 : Spacing (d64 3 0).
Proof. assert (V : real_of (d64 3 0 : num A64) = 3) by (cbn -[Rinv IZR]; unfold Defs.F2R; cbn; lra). split; [vm_compute; reflexivity|]. rewrite V. lra. Qed.
Lemma spacing1 : Spacing (d64 1 0).
Proof. assert (V : real_of (d64 1 0 : num A64) = 1) by (cbn -[Rinv IZR]; unfold Defs.F2R; cbn; lra). split; [vm_compute; reflexivity|]. rewrite V. lra. Qed.
Example C114_example : let h := d64 3 0 in let p := mkPoint2 (d64 7 0) (nd64 1 0) : Point2 (num A64) in let q := mkPoint2 (d64 5 0) (d64 1 0) : Point2 (num A64) in
  let b := mkBB2 (mkPoint2 (d64 6 0) (nd64 2 0)) (mkPoint2 (d64 9 0) (d64 2 0)) : BoundingBox2 (num A64) in
  Spacing h /\ Finite2 p /\ Finite2 q /\ bb2_is_inside b p = true /\ PEq2 (key2 h p) (mkPoint2 (d64 2 0) (nd64 1 0)) /\ PEq2 (key2 h q) (mkPoint2 (d64 1 0) (d64 0 0)) /\ length (grid_query2 h b [p; q]) = 1%nat.
Proof. cbv zeta. split; [exact spacing3|]. repeat (split; [first [intros []; vm_compute; reflexivity | vm_compute; reflexivity]|]). vm_compute; reflexivity. Qed.
Example C114_example_bounds : Rabs (real_of (d64 7 0)) <= 2 ^ 22 * real_of (d64 3 0) /\ Rabs (real_of (d64 5 0)) <= 2 ^ 22 * real_of (d64 3 0) /\ Rabs (real_of (d64 7 0) - real_of (d64 5 0)) <= real_of (d64 3 0).
Proof.
  assert (V1 : real_of (d64 7 0 : num A64) = 7) by (cbn -[Rinv IZR]; unfold Defs.F2R; cbn; lra). assert (V2 : real_of (d64 5 0 : num A64) = 5) by (cbn -[Rinv IZR]; unfold Defs.F2R; cbn; lra). assert (V3 : real_of (d64 3 0 : num A64) = 3) by (cbn -[Rinv IZR]; unfold Defs.F2R; cbn; lra).
  rewrite V1, V2, V3. cbn [pow]. rewrite !Rabs_pos_eq by lra. lra.
Qed.
(** FINDING: two f64 points whose computed distance is at most h (the real one is greater), two cells apart: h = 1, (1, 0) and (-2^-60, 0). *)
Theorem C114_two_cells_apart : let h := d64 1 0 in let p := mkPoint2 (d64 1 0) (d64 0 0) : Point2 (num A64) in let q := mkPoint2 (nd64 1 (-60)) (d64 0 0) : Point2 (num A64) in
  Spacing h /\ Finite2 p /\ Finite2 q /\ Le (p2_distance p q) h /\ PEq2 (key2 h p) (mkPoint2 (d64 1 0) (d64 0 0)) /\ PEq2 (key2 h q) (mkPoint2 (nd64 1 0) (d64 0 0)).
Proof. cbv zeta. split; [exact spacing1|]. repeat (split; [first [intros []; vm_compute; reflexivity | vm_compute; reflexivity]|]). intros []; vm_compute; reflexivity. Qed.
Print Assumptions C114_two_cells_apart.
