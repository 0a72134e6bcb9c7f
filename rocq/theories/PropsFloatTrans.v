(** Property theorems in floating point: identity, translation and scaling are exact (C37, C40). *)
From Coq Require Import Bool NArith ZArith Reals List.
From Verif Require Import Scalar Types Vector2 Vector3 Point2 Point3 Ray BoundingBox2 BoundingBox3 Transform2 Transform3 Float
  XReal Arith SpecOrder SpecFloat ExVals FloatTrans.
Import ListNotations.
(** ** C40: translation, scaling and identity act exactly *)
Theorem C40_identity_2d : forall (A : arith) (p : Point2 (num A)) (v : Vector2 (num A)),
  (Finite2 p -> PEq2 (t2_transform_point t2_identity p) p) /\ (VFinite2 v -> VEq2 (t2_transform_vector t2_identity v) v).
Proof. exact C40_identity_2d_pf. Qed.
Print Assumptions C40_identity_2d.
Theorem C40_identity_3d : forall (A : arith) (p : Point3 (num A)) (v : Vector3 (num A)),
  (Finite3 p -> PEq3 (t3_transform_point t3_identity p) p) /\ (VFinite3 v -> VEq3 (t3_transform_vector t3_identity v) v).
Proof. exact C40_identity_3d_pf. Qed.
Print Assumptions C40_identity_3d.
Theorem C40_translate_2d : forall (A : arith) (t : Vector2 (num A)) (p : Point2 (num A)) (v : Vector2 (num A)),
  (VFinite2 t -> Finite2 p ->
     PEq2 (t2_transform_point (t2_translate t) p) (p2_add p t) /\
     PEq2 (t2_transform_point (t2_inverse (t2_translate t)) p) (p2_sub_v p t)) /\
  (VFinite2 v ->
     VEq2 (t2_transform_vector (t2_translate t) v) v /\ VEq2 (t2_transform_vector (t2_inverse (t2_translate t)) v) v).
Proof. exact C40_translate_2d_pf. Qed.
Print Assumptions C40_translate_2d.
Theorem C40_translate_3d : forall (A : arith) (t : Vector3 (num A)) (p : Point3 (num A)) (v : Vector3 (num A)),
  (VFinite3 t -> Finite3 p ->
     PEq3 (t3_transform_point (t3_translate t) p) (p3_add p t) /\
     PEq3 (t3_transform_point (t3_inverse (t3_translate t)) p) (p3_sub_v p t)) /\
  (VFinite3 v ->
     VEq3 (t3_transform_vector (t3_translate t) v) v /\ VEq3 (t3_transform_vector (t3_inverse (t3_translate t)) v) v).
Proof. exact C40_translate_3d_pf. Qed.
Print Assumptions C40_translate_3d.
Theorem C40_scale_2d : forall (A : arith) (sx sy : num A) (p : Point2 (num A)) (v : Vector2 (num A)), Finite sx -> Finite sy ->
  (Finite2 p -> PEq2 (t2_transform_point (t2_scale sx sy) p) (mkPoint2 (smul sx (p2x p)) (smul sy (p2y p)))) /\
  (VFinite2 v -> VEq2 (t2_transform_vector (t2_scale sx sy) v) (mkVector2 (smul sx (v2x v)) (smul sy (v2y v)))) /\
  (Finite2 p -> PEq2 (t2_transform_point (t2_scale_uniform sx) p) (p2_mul p sx)) /\
  (VFinite2 v -> VEq2 (t2_transform_vector (t2_scale_uniform sx) v) (v2_mul v sx)).
Proof. exact C40_scale_2d_pf. Qed.
Print Assumptions C40_scale_2d.
Theorem C40_scale_3d : forall (A : arith) (sx sy sz : num A) (p : Point3 (num A)) (v : Vector3 (num A)), Finite sx -> Finite sy -> Finite sz ->
  (Finite3 p -> PEq3 (t3_transform_point (t3_scale sx sy sz) p) (mkPoint3 (smul sx (p3x p)) (smul sy (p3y p)) (smul sz (p3z p)))) /\
  (VFinite3 v -> VEq3 (t3_transform_vector (t3_scale sx sy sz) v) (mkVector3 (smul sx (v3x v)) (smul sy (v3y v)) (smul sz (v3z v)))) /\
  (Finite3 p -> PEq3 (t3_transform_point (t3_scale_uniform sx) p) (p3_mul p sx)) /\
  (VFinite3 v -> VEq3 (t3_transform_vector (t3_scale_uniform sx) v) (v3_mul v sx)).
Proof. exact C40_scale_3d_pf. Qed.
Print Assumptions C40_scale_3d.
(** ** C37: the identity matrix is neutral *)
Theorem C37_identity_neutral_float_2d : forall (A : arith) (m : Matrix3x3 (num A)), MFinite3 m -> m3_eq (m3_mul m3_identity m) m = true /\ m3_eq (m3_mul m m3_identity) m = true.
Proof. exact C37_identity_neutral_float_2d_pf. Qed.
Print Assumptions C37_identity_neutral_float_2d.
Theorem C37_identity_neutral_float_3d : forall (A : arith) (m : Matrix4x4 (num A)), MFinite4 m -> m4_eq (m4_mul m4_identity m) m = true /\ m4_eq (m4_mul m m4_identity) m = true.
Proof. exact C37_identity_neutral_float_3d_pf. Qed.
Print Assumptions C37_identity_neutral_float_3d.
(** ** C40: composition of translations *)
Theorem C40_translate_compose_2d : forall (A : arith) (u v : Vector2 (num A)), VFinite2 u -> VFinite2 v ->
  t2_eq (t2_and_then (t2_translate u) (t2_translate v)) (t2_translate (v2_add u v)) = true /\
  t2_eq (t2_and_then (t2_translate u) (t2_inverse (t2_translate u))) t2_identity = true.
Proof. exact C40_translate_compose_2d_pf. Qed.
Print Assumptions C40_translate_compose_2d.
Theorem C40_translate_compose_3d : forall (A : arith) (u v : Vector3 (num A)), VFinite3 u -> VFinite3 v ->
  t3_eq (t3_and_then (t3_translate u) (t3_translate v)) (t3_translate (v3_add u v)) = true /\
  t3_eq (t3_and_then (t3_translate u) (t3_inverse (t3_translate u))) t3_identity = true.
Proof. exact C40_translate_compose_3d_pf. Qed.
Print Assumptions C40_translate_compose_3d.
Example C40_example : let v := mkVector2 (d64 1 0) (nd64 3 (-1)) in
  VFinite2 v /\ Finite2 ptA2 /\ p2_eq (t2_transform_point (t2_translate v) ptA2) (mkPoint2 (d64 2 0) (d64 0 0)) = true /\
  MFinite3 (m3_translate v) /\ MFinite4 (m4_scale (d64 2 0) (d64 3 0) (nd64 1 (-1))).
Proof. cbv zeta. repeat apply conj; try (intros []); try (repeat constructor); vm_compute; reflexivity. Qed.
(** ** C47: an infinite box does not survive the identity transform (0 * infinity is NaN) *)
Theorem C47_infinite_box_refuted_2d : forall (A : arith) (p : Point2 (num A)),
  NoNaN2 p -> bb2_is_inside bb2_infinite p = true /\ bb2_is_inside (t2_transform_bb t2_identity bb2_infinite) p = false.
Proof. exact C47_infinite_box_refuted_2d_pf. Qed.
Print Assumptions C47_infinite_box_refuted_2d.
Theorem C47_infinite_box_refuted_3d : forall (A : arith) (p : Point3 (num A)),
  NoNaN3 p -> bb3_is_inside bb3_infinite p = true /\ bb3_is_inside (t3_transform_bb t3_identity bb3_infinite) p = false.
Proof. exact C47_infinite_box_refuted_3d_pf. Qed.
Print Assumptions C47_infinite_box_refuted_3d.
