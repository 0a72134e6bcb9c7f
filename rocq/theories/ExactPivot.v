(** Proofs: transforms about a pivot point (C124). *)
From Coq Require Import Bool NArith ZArith Reals List Lra Lia Psatz.
From Verif Require Import Scalar Types Vector2 Vector3 Point2 Point3 Ray BoundingBox2 BoundingBox3 Transform2 Transform3
  XReal Arith SpecReal SpecBox SpecTrans SpecSim SpecScene SpecPivot XTac ExactBase ExactVec ExactMat ExactRot ExactTrans ExactBox ExactTransBox ExactTransRay ExactSim ExactScene ExactReflect.
Local Open Scope R_scope.
Ltac bs2 := repeat (apply B2_and_then || apply B2_inverse).
Ltac bs3 := repeat (apply B3_and_then || apply B3_inverse).
Lemma fp2 t : Built2 affine2 t -> exists w, t = XT2 w /\ affine2 (t2_forward w) /\ (forall p, t2_transform_point t (XP2 p) = XP2 (img2 (t2_forward w) p)) /\ (forall v, t2_transform_vector t (XV2 v) = XV2 (Rlin2 (t2_forward w) v)).
Proof.
  intros B. destruct (built2_finite _ _ B) as (w & -> & _). destruct (built2_affine w B) as [A _]. exists w. split; [reflexivity|]. split; [exact A|]. split; [intros p; now apply tpoint_af2 | intros v; exact (xvec2 (t2_forward w) v)].
Qed.
Lemma seq_pt2 t u p : Built2 affine2 t -> Built2 affine2 u -> t2_transform_point (t2_and_then t u) (XP2 p) = t2_transform_point u (t2_transform_point t (XP2 p)).
Proof. intros B C. destruct (fp2 t B) as (w & -> & A & _). destruct (fp2 u C) as (x & -> & A' & _). now apply (C44_and_then_affine_2d_pf w x p Rzero2 (mkRay2 p Rzero2)). Qed.
Lemma seq_vec2 t u v : Built2 affine2 t -> Built2 affine2 u -> t2_transform_vector (t2_and_then t u) (XV2 v) = t2_transform_vector u (t2_transform_vector t (XV2 v)).
Proof. intros B C. destruct (fp2 t B) as (w & -> & A & _). destruct (fp2 u C) as (x & -> & A' & _). now apply C44_and_then_vector_2d_pf. Qed.
Lemma about_to2 c p : t2_transform_point (t2_translate (p2_sub p2_origin (XP2 c))) (XP2 p) = p2_add p2_origin (p2_sub (XP2 p) (XP2 c)).
Proof. xdestr; xcbv; rewrite !xdiv_fin by lra; xeqs; field. Qed.
Lemma about_back2 c q : t2_transform_point (t2_translate (p2_sub (XP2 c) p2_origin)) (XP2 q) = p2_add (XP2 q) (p2_sub (XP2 c) p2_origin).
Proof. xdestr; xcbv; rewrite !xdiv_fin by lra; xeqs; field. Qed.
Lemma vec_tr2 w v : t2_transform_vector (t2_translate (XV2 w)) (XV2 v) = XV2 v.
Proof. xring. Qed.
Lemma neg_c2 c : exists w, p2_sub p2_origin (XP2 c) = XV2 w.
Proof. destruct c. eexists (mkVector2 _ _). reflexivity. Qed.
Lemma pos_c2 c : exists w, p2_sub (XP2 c) p2_origin = XV2 w.
Proof. destruct c. eexists (mkVector2 _ _). reflexivity. Qed.
Lemma C124_built_2d_pf : forall (t : Transform2 xreal) (c : Point2 R), Built2 affine2 t -> Built2 affine2 (about2 (XP2 c) t).
Proof. intros t c B. unfold about2. destruct (neg_c2 c) as [w ->]. destruct (pos_c2 c) as [w' ->]. apply B2_and_then; [apply B2_and_then; [apply B2_translate | exact B] | apply B2_translate]. Qed.
Lemma C124_about_2d_pf : forall (t : Transform2 xreal) (c p : Point2 R) (v : Vector2 R), Built2 affine2 t ->
  t2_transform_point (about2 (XP2 c) t) (XP2 p) = p2_add (t2_transform_point t (p2_add p2_origin (p2_sub (XP2 p) (XP2 c)))) (p2_sub (XP2 c) p2_origin) /\
  t2_transform_vector (about2 (XP2 c) t) (XV2 v) = t2_transform_vector t (XV2 v).
Proof.
  intros t c p v B. destruct (fp2 t B) as (w & -> & A & P & V).
  assert (Q : exists q, p2_add p2_origin (p2_sub (XP2 p) (XP2 c)) = XP2 q) by (destruct p, c; eexists (mkPoint2 _ _); reflexivity). destruct Q as [q Q].
  unfold about2. pose proof (about_to2 c p) as T. pose proof (about_back2 c) as K. destruct (neg_c2 c) as [n N]. destruct (pos_c2 c) as [m M]. rewrite N in *. rewrite M in *.
  assert (BB1 : Built2 affine2 (t2_translate (XV2 n))) by constructor. assert (BB2 : Built2 affine2 (t2_translate (XV2 m))) by constructor.
  assert (BB3 : Built2 affine2 (t2_and_then (t2_translate (XV2 n)) (XT2 w))) by (bs2; assumption). split.
  - rewrite seq_pt2, seq_pt2 by assumption. rewrite T, Q, P. apply K.
  - rewrite seq_vec2, seq_vec2 by assumption. rewrite vec_tr2, V. apply vec_tr2.
Qed.
Lemma C124_pivot_2d_pf : forall (t : Transform2 xreal) (c p : Point2 R), Built2 affine2 t -> t2_transform_point t p2_origin = p2_origin ->
  t2_transform_point (about2 (XP2 c) t) (XP2 c) = XP2 c /\
  t2_transform_point (about2 (XP2 c) t) (XP2 p) = p2_add (XP2 c) (t2_transform_vector t (p2_sub (XP2 p) (XP2 c))).
Proof.
  intros t c p B O0. assert (G : forall p, t2_transform_point (about2 (XP2 c) t) (XP2 p) = p2_add (XP2 c) (t2_transform_vector t (p2_sub (XP2 p) (XP2 c)))).
  { clear p. intros p. rewrite (proj1 (C124_about_2d_pf t c p Rzero2 B)). destruct (fp2 t B) as (w & -> & A & P & V).
    change (@p2_origin xreal xreal_ops) with (XP2 (mkPoint2 0 0)) in O0. rewrite P in O0. rewrite img2_affine in O0 by exact A. apply XP2_inj in O0. cbn in O0. injection O0 as Zx Zy.
    rewrite xp2_sub, V. assert (Q : p2_add p2_origin (XV2 (mkVector2 (p2x p - p2x c) (p2y p - p2y c))) = XP2 (mkPoint2 (p2x p - p2x c) (p2y p - p2y c))) by (destruct p, c; xcbv; xeqs; cbn; ring).
    rewrite Q, P, img2_affine by exact A. destruct (t2_forward w), p, c. cbn in *. unfold Rlin2. xcbv. cbn. xeqs; lra. }
  split; [|apply G]. rewrite G. destruct (fp2 t B) as (w & -> & A & P & V). rewrite xp2_sub, V. destruct (t2_forward w), c. unfold Rlin2. cbn. xcbv. xeqs; ring.
Qed.
Lemma C124_group_2d_pf : forall (t u : Transform2 xreal) (c p : Point2 R), Built2 affine2 t -> Built2 affine2 u ->
  t2_transform_point (t2_and_then (about2 (XP2 c) t) (about2 (XP2 c) u)) (XP2 p) = t2_transform_point (about2 (XP2 c) (t2_and_then t u)) (XP2 p) /\
  t2_transform_point (t2_inverse (about2 (XP2 c) t)) (XP2 p) = t2_transform_point (about2 (XP2 c) (t2_inverse t)) (XP2 p).
Proof.
  assert (G : forall (t u : Transform2 xreal) (c p : Point2 R), Built2 affine2 t -> Built2 affine2 u ->
    t2_transform_point (about2 (XP2 c) u) (t2_transform_point (about2 (XP2 c) t) (XP2 p)) = t2_transform_point (about2 (XP2 c) (t2_and_then t u)) (XP2 p)).
  { intros t u c p B C. assert (D : Built2 affine2 (t2_and_then t u)) by (bs2; assumption).
    rewrite (proj1 (C124_about_2d_pf _ c p Rzero2 D)), (proj1 (C124_about_2d_pf _ c p Rzero2 B)).
    assert (Q : exists q, p2_add p2_origin (p2_sub (XP2 p) (XP2 c)) = XP2 q) by (destruct p, c; eexists (mkPoint2 _ _); reflexivity). destruct Q as [q Q]. rewrite Q.
    rewrite seq_pt2 by assumption. destruct (fp2 t B) as (w & -> & A & P & _). rewrite P. set (y := img2 (t2_forward w) q).
    assert (Z : exists z, p2_add (XP2 y) (p2_sub (XP2 c) p2_origin) = XP2 z /\ p2_add p2_origin (p2_sub (XP2 z) (XP2 c)) = XP2 y) by (destruct y, c; eexists (mkPoint2 _ _); split; [reflexivity | xcbv; xeqs; cbn; ring]).
    destruct Z as (z & Z1 & Z2). rewrite Z1. rewrite (proj1 (C124_about_2d_pf _ c z Rzero2 C)). now rewrite Z2. }
  intros t u c p B C. pose proof (C124_built_2d_pf t c B) as BT. pose proof (C124_built_2d_pf u c C) as BU. split.
  - rewrite seq_pt2 by assumption. now apply G.
  - assert (BI : Built2 affine2 (t2_inverse t)) by (bs2; assumption). pose proof (C124_built_2d_pf _ c BI) as BA.
    destruct (fp2 _ BA) as (w & E & A & P & _). rewrite P. set (q := img2 (t2_forward w) p).
    assert (H : t2_transform_point (about2 (XP2 c) t) (XP2 q) = XP2 p).
    { unfold q. rewrite <- P, G by assumption. assert (D : Built2 affine2 (t2_and_then (t2_inverse t) t)) by (bs2; assumption). rewrite (proj1 (C124_about_2d_pf _ c p Rzero2 D)).
      assert (Q : p2_add p2_origin (p2_sub (XP2 p) (XP2 c)) = XP2 (mkPoint2 (p2x p - p2x c) (p2y p - p2y c))) by (destruct p, c; xcbv; xeqs; cbn; ring). rewrite Q.
      rewrite seq_pt2 by assumption. pose proof (proj1 (C43_affine_round_trip_2d_pf (t2_inverse t) (mkPoint2 (p2x p - p2x c) (p2y p - p2y c)) Rzero2 (mkRay2 p Rzero2) BI)) as K.
      replace (t2_inverse (t2_inverse t)) with t in K by (destruct t; reflexivity). rewrite K. destruct p, c. xcbv. cbn. xeqs; ring. }
    rewrite <- H. exact (proj1 (C43_affine_round_trip_2d_pf _ q Rzero2 (mkRay2 p Rzero2) BT)).
Qed.
Lemma C124_similar_2d_pf : forall (t : Transform2 xreal) (k : R) (c p : Point2 R), Similar2 t k -> t2_transform_point t p2_origin = p2_origin ->
  p2_distance (t2_transform_point (about2 (XP2 c) t) (XP2 p)) (XP2 c) = Fin (Rabs k * Rdist2 p c).
Proof.
  intros t k c p S O0. assert (S' : Similar2 (about2 (XP2 c) t) (1 * k * 1)). { unfold about2. destruct (neg_c2 c) as [w ->]. destruct (pos_c2 c) as [w' ->]. apply S2_and_then; [apply S2_and_then; [apply S2_translate | exact S] | apply S2_translate]. }
  pose proof (Similar2_built _ _ S) as B. rewrite <- (proj1 (C124_pivot_2d_pf t c c B O0)) at 2. rewrite (proj1 (C94_similarity_2d_pf _ _ S' p c Rzero2 Rzero2)). replace (1 * k * 1) with k by ring. reflexivity.
Qed.
Lemma fp3 t : Built3 affine3 t -> exists w, t = XT3 w /\ affine3 (t3_forward w) /\ (forall p, t3_transform_point t (XP3 p) = XP3 (img3 (t3_forward w) p)) /\ (forall v, t3_transform_vector t (XV3 v) = XV3 (Rlin3 (t3_forward w) v)).
Proof.
  intros B. destruct (built3_finite _ _ B) as (w & -> & _). destruct (built3_affine w B) as [A _]. exists w. split; [reflexivity|]. split; [exact A|]. split; [intros p; now apply tpoint_af3 | intros v; exact (xvec3 (t3_forward w) v)].
Qed.
Lemma seq_pt3 t u p : Built3 affine3 t -> Built3 affine3 u -> t3_transform_point (t3_and_then t u) (XP3 p) = t3_transform_point u (t3_transform_point t (XP3 p)).
Proof. intros B C. destruct (fp3 t B) as (w & -> & A & _). destruct (fp3 u C) as (x & -> & A' & _). now apply (C44_and_then_affine_3d_pf w x p Rzero3 (mkRay3 p Rzero3)). Qed.
Lemma seq_vec3 t u v : Built3 affine3 t -> Built3 affine3 u -> t3_transform_vector (t3_and_then t u) (XV3 v) = t3_transform_vector u (t3_transform_vector t (XV3 v)).
Proof. intros B C. destruct (fp3 t B) as (w & -> & A & _). destruct (fp3 u C) as (x & -> & A' & _). now apply C44_and_then_vector_3d_pf. Qed.
Lemma about_to3 c p : t3_transform_point (t3_translate (p3_sub p3_origin (XP3 c))) (XP3 p) = p3_add p3_origin (p3_sub (XP3 p) (XP3 c)).
Proof. xdestr; xcbv; rewrite !xdiv_fin by lra; xeqs; field. Qed.
Lemma about_back3 c q : t3_transform_point (t3_translate (p3_sub (XP3 c) p3_origin)) (XP3 q) = p3_add (XP3 q) (p3_sub (XP3 c) p3_origin).
Proof. xdestr; xcbv; rewrite !xdiv_fin by lra; xeqs; field. Qed.
Lemma vec_tr3 w v : t3_transform_vector (t3_translate (XV3 w)) (XV3 v) = XV3 v.
Proof. xring. Qed.
Lemma neg_c3 c : exists w, p3_sub p3_origin (XP3 c) = XV3 w.
Proof. destruct c. eexists (mkVector3 _ _ _). reflexivity. Qed.
Lemma pos_c3 c : exists w, p3_sub (XP3 c) p3_origin = XV3 w.
Proof. destruct c. eexists (mkVector3 _ _ _). reflexivity. Qed.
Lemma C124_built_3d_pf : forall (t : Transform3 xreal) (c : Point3 R), Built3 affine3 t -> Built3 affine3 (about3 (XP3 c) t).
Proof. intros t c B. unfold about3. destruct (neg_c3 c) as [w ->]. destruct (pos_c3 c) as [w' ->]. apply B3_and_then; [apply B3_and_then; [apply B3_translate | exact B] | apply B3_translate]. Qed.
Lemma C124_about_3d_pf : forall (t : Transform3 xreal) (c p : Point3 R) (v : Vector3 R), Built3 affine3 t ->
  t3_transform_point (about3 (XP3 c) t) (XP3 p) = p3_add (t3_transform_point t (p3_add p3_origin (p3_sub (XP3 p) (XP3 c)))) (p3_sub (XP3 c) p3_origin) /\
  t3_transform_vector (about3 (XP3 c) t) (XV3 v) = t3_transform_vector t (XV3 v).
Proof.
  intros t c p v B. destruct (fp3 t B) as (w & -> & A & P & V).
  assert (Q : exists q, p3_add p3_origin (p3_sub (XP3 p) (XP3 c)) = XP3 q) by (destruct p, c; eexists (mkPoint3 _ _ _); reflexivity). destruct Q as [q Q].
  unfold about3. pose proof (about_to3 c p) as T. pose proof (about_back3 c) as K. destruct (neg_c3 c) as [n N]. destruct (pos_c3 c) as [m M]. rewrite N in *. rewrite M in *.
  assert (BB1 : Built3 affine3 (t3_translate (XV3 n))) by constructor. assert (BB2 : Built3 affine3 (t3_translate (XV3 m))) by constructor.
  assert (BB3 : Built3 affine3 (t3_and_then (t3_translate (XV3 n)) (XT3 w))) by (bs3; assumption). split.
  - rewrite seq_pt3, seq_pt3 by assumption. rewrite T, Q, P. apply K.
  - rewrite seq_vec3, seq_vec3 by assumption. rewrite vec_tr3, V. apply vec_tr3.
Qed.
Lemma C124_pivot_3d_pf : forall (t : Transform3 xreal) (c p : Point3 R), Built3 affine3 t -> t3_transform_point t p3_origin = p3_origin ->
  t3_transform_point (about3 (XP3 c) t) (XP3 c) = XP3 c /\
  t3_transform_point (about3 (XP3 c) t) (XP3 p) = p3_add (XP3 c) (t3_transform_vector t (p3_sub (XP3 p) (XP3 c))).
Proof.
  intros t c p B O0. assert (G : forall p, t3_transform_point (about3 (XP3 c) t) (XP3 p) = p3_add (XP3 c) (t3_transform_vector t (p3_sub (XP3 p) (XP3 c)))).
  { clear p. intros p. rewrite (proj1 (C124_about_3d_pf t c p Rzero3 B)). destruct (fp3 t B) as (w & -> & A & P & V).
    change (@p3_origin xreal xreal_ops) with (XP3 (mkPoint3 0 0 0)) in O0. rewrite P in O0. rewrite img3_affine in O0 by exact A. apply XP3_inj in O0. cbn in O0. injection O0 as Zx Zy Zz.
    rewrite xp3_sub, V. assert (Q : p3_add p3_origin (XV3 (mkVector3 (p3x p - p3x c) (p3y p - p3y c) (p3z p - p3z c))) = XP3 (mkPoint3 (p3x p - p3x c) (p3y p - p3y c) (p3z p - p3z c))) by (destruct p, c; xcbv; xeqs; cbn; ring).
    rewrite Q, P, img3_affine by exact A. destruct (t3_forward w), p, c. cbn in *. unfold Rlin3. xcbv. cbn. xeqs; lra. }
  split; [|apply G]. rewrite G. destruct (fp3 t B) as (w & -> & A & P & V). rewrite xp3_sub, V. destruct (t3_forward w), c. unfold Rlin3. cbn. xcbv. xeqs; ring.
Qed.
Lemma C124_group_3d_pf : forall (t u : Transform3 xreal) (c p : Point3 R), Built3 affine3 t -> Built3 affine3 u ->
  t3_transform_point (t3_and_then (about3 (XP3 c) t) (about3 (XP3 c) u)) (XP3 p) = t3_transform_point (about3 (XP3 c) (t3_and_then t u)) (XP3 p) /\
  t3_transform_point (t3_inverse (about3 (XP3 c) t)) (XP3 p) = t3_transform_point (about3 (XP3 c) (t3_inverse t)) (XP3 p).
Proof.
  assert (G : forall (t u : Transform3 xreal) (c p : Point3 R), Built3 affine3 t -> Built3 affine3 u ->
    t3_transform_point (about3 (XP3 c) u) (t3_transform_point (about3 (XP3 c) t) (XP3 p)) = t3_transform_point (about3 (XP3 c) (t3_and_then t u)) (XP3 p)).
  { intros t u c p B C. assert (D : Built3 affine3 (t3_and_then t u)) by (bs3; assumption).
    rewrite (proj1 (C124_about_3d_pf _ c p Rzero3 D)), (proj1 (C124_about_3d_pf _ c p Rzero3 B)).
    assert (Q : exists q, p3_add p3_origin (p3_sub (XP3 p) (XP3 c)) = XP3 q) by (destruct p, c; eexists (mkPoint3 _ _ _); reflexivity). destruct Q as [q Q]. rewrite Q.
    rewrite seq_pt3 by assumption. destruct (fp3 t B) as (w & -> & A & P & _). rewrite P. set (y := img3 (t3_forward w) q).
    assert (Z : exists z, p3_add (XP3 y) (p3_sub (XP3 c) p3_origin) = XP3 z /\ p3_add p3_origin (p3_sub (XP3 z) (XP3 c)) = XP3 y) by (destruct y, c; eexists (mkPoint3 _ _ _); split; [reflexivity | xcbv; xeqs; cbn; ring]).
    destruct Z as (z & Z1 & Z2). rewrite Z1. rewrite (proj1 (C124_about_3d_pf _ c z Rzero3 C)). now rewrite Z2. }
  intros t u c p B C. pose proof (C124_built_3d_pf t c B) as BT. pose proof (C124_built_3d_pf u c C) as BU. split.
  - rewrite seq_pt3 by assumption. now apply G.
  - assert (BI : Built3 affine3 (t3_inverse t)) by (bs3; assumption). pose proof (C124_built_3d_pf _ c BI) as BA.
    destruct (fp3 _ BA) as (w & E & A & P & _). rewrite P. set (q := img3 (t3_forward w) p).
    assert (H : t3_transform_point (about3 (XP3 c) t) (XP3 q) = XP3 p).
    { unfold q. rewrite <- P, G by assumption. assert (D : Built3 affine3 (t3_and_then (t3_inverse t) t)) by (bs3; assumption). rewrite (proj1 (C124_about_3d_pf _ c p Rzero3 D)).
      assert (Q : p3_add p3_origin (p3_sub (XP3 p) (XP3 c)) = XP3 (mkPoint3 (p3x p - p3x c) (p3y p - p3y c) (p3z p - p3z c))) by (destruct p, c; xcbv; xeqs; cbn; ring). rewrite Q.
      rewrite seq_pt3 by assumption. pose proof (proj1 (C43_affine_round_trip_3d_pf (t3_inverse t) (mkPoint3 (p3x p - p3x c) (p3y p - p3y c) (p3z p - p3z c)) Rzero3 (mkRay3 p Rzero3) BI)) as K.
      replace (t3_inverse (t3_inverse t)) with t in K by (destruct t; reflexivity). rewrite K. destruct p, c. xcbv. cbn. xeqs; ring. }
    rewrite <- H. exact (proj1 (C43_affine_round_trip_3d_pf _ q Rzero3 (mkRay3 p Rzero3) BT)).
Qed.
Lemma C124_similar_3d_pf : forall (t : Transform3 xreal) (k : R) (c p : Point3 R), Similar3 t k -> t3_transform_point t p3_origin = p3_origin ->
  p3_distance (t3_transform_point (about3 (XP3 c) t) (XP3 p)) (XP3 c) = Fin (Rabs k * Rdist3 p c).
Proof.
  intros t k c p S O0. assert (S' : Similar3 (about3 (XP3 c) t) (1 * k * 1)). { unfold about3. destruct (neg_c3 c) as [w ->]. destruct (pos_c3 c) as [w' ->]. apply S3_and_then; [apply S3_and_then; [apply S3_translate | exact S] | apply S3_translate]. }
  pose proof (Similar3_built _ _ S) as B. rewrite <- (proj1 (C124_pivot_3d_pf t c c B O0)) at 2. rewrite (proj1 (C94_similarity_3d_pf _ _ S' p c Rzero3 Rzero3)). replace (1 * k * 1) with k by ring. reflexivity.
Qed.
Lemma rot_origin2 a : t2_transform_point (t2_rotate (Fin a)) p2_origin = p2_origin.
Proof. destruct (C41_rotation_isometry_2d_pf a Rzero2 Rzero2 (mkPoint2 0 0) (mkPoint2 0 0)) as (_ & _ & _ & H). exact H. Qed.
Lemma C124_rotation_2d_pf : forall (a b : R) (c p : Point2 R),
  t2_transform_point (t2_and_then (about2 (XP2 c) (t2_rotate (Fin a))) (about2 (XP2 c) (t2_rotate (Fin b)))) (XP2 p) = t2_transform_point (about2 (XP2 c) (t2_rotate (Fin (a + b)))) (XP2 p) /\
  t2_transform_point (t2_inverse (about2 (XP2 c) (t2_rotate (Fin a)))) (XP2 p) = t2_transform_point (about2 (XP2 c) (t2_rotate (Fin (- a)))) (XP2 p) /\
  (cos a <> 1 -> (t2_transform_point (about2 (XP2 c) (t2_rotate (Fin a))) (XP2 p) = XP2 p <-> p = c)).
Proof.
  intros a b c p. assert (Ba : Built2 affine2 (t2_rotate (Fin a))) by apply B2_rotate. assert (Bb : Built2 affine2 (t2_rotate (Fin b))) by apply B2_rotate. assert (Bab : Built2 affine2 (t2_rotate (Fin (a + b)))) by apply B2_rotate.
  assert (O0 : forall a, t2_transform_point (t2_rotate (Fin a)) p2_origin = p2_origin) by apply rot_origin2.
  split; [|split].
  - rewrite (proj1 (C124_group_2d_pf _ _ c p Ba Bb)). assert (Bc : Built2 affine2 (t2_and_then (t2_rotate (Fin a)) (t2_rotate (Fin b)))) by (bs2; assumption).
    rewrite (proj1 (C124_about_2d_pf _ c p Rzero2 Bc)), (proj1 (C124_about_2d_pf _ c p Rzero2 Bab)). f_equal.
    assert (E : t2_forward (t2_and_then (t2_rotate (Fin a)) (t2_rotate (Fin b))) = t2_forward (t2_rotate (Fin (a + b)))).
    { cbn [t2_and_then t2_rotate t2_forward t2_new]. replace (a + b) with (b + a) by ring. exact (proj1 (C41_compose_angles_pf b a)). }
    unfold t2_transform_point. now rewrite E.
  - rewrite (proj2 (C124_group_2d_pf _ _ c p Ba Bb)). now rewrite (proj1 (C41_inverse_is_negative_angle_pf a)).
  - intros N. rewrite (proj2 (C124_pivot_2d_pf _ c p Ba (O0 a))). split; [|intros ->; rewrite <- (proj2 (C124_pivot_2d_pf _ c c Ba (O0 a))); apply (C124_pivot_2d_pf _ c c Ba (O0 a))].
    destruct p as [px py], c as [cx cy]. intros H. revert H. xcbv. cbn. intros H. injection H as H1 H2. pose proof (sin2_cos2 a) as T. unfold Rsqr in T.
    set (s := sin a) in *. set (k := cos a) in *. set (dx := px - cx). set (dy := py - cy).
    assert (E1 : k * dx - s * dy = dx) by (unfold dx, dy; lra). assert (E2 : s * dx + k * dy = dy) by (unfold dx, dy; lra).
    assert (Z : (k - 1) * (dx * dx + dy * dy) = 0) by (replace ((k - 1) * (dx * dx + dy * dy)) with (dx * (k * dx - s * dy) + dy * (s * dx + k * dy) - dx * dx - dy * dy) by ring; rewrite E1, E2; ring).
    apply Rmult_integral in Z. destruct Z as [Z|Z]; [lra|]. assert (dx = 0) by nra. assert (dy = 0) by nra. unfold dx, dy in *. f_equal; lra.
Qed.
Lemma C124_axis_3d_pf : forall (axis : Vector3 R) (a : R) (c : Point3 R), axis <> Rzero3 -> let t := about3 (XP3 c) (t3_rotate_axis (XV3 axis) (Fin a)) in
  (forall s : R, let p := r3_at (r3_new (XP3 c) (XV3 axis)) (Fin s) in t3_transform_point t p = p) /\
  (cos a <> 1 -> forall p : Point3 R, t3_transform_point t (XP3 p) = XP3 p -> exists s : R, XP3 p = r3_at (r3_new (XP3 c) (XV3 axis)) (Fin s)).
Proof.
  intros axis a c H t. assert (B : Built3 affine3 (t3_rotate_axis (XV3 axis) (Fin a))) by now apply B3_rotate_axis.
  destruct (C42_axis_rotation_isometry_pf axis a Rzero3 Rzero3 c c H) as (_ & _ & _ & O0 & AX). pose proof (Runit_dot axis H) as U. pose proof (Rnorm3_pos axis H) as NP.
  assert (G : forall p, t3_transform_point t (XP3 p) = p3_add (XP3 c) (t3_transform_vector (t3_rotate_axis (XV3 axis) (Fin a)) (p3_sub (XP3 p) (XP3 c)))) by (intros p; apply (C124_pivot_3d_pf _ c p B O0)).
  assert (AT : forall s, r3_at (r3_new (XP3 c) (XV3 axis)) (Fin s) = XP3 (Rat3 (mkRay3 c axis) s)) by (intros s; exact (xr3_at (mkRay3 c axis) s)).
  split.
  - intros s p. unfold p. rewrite AT, G, xp3_sub. destruct (fp3 _ B) as (w & E & A & P & V). rewrite V in AX |- *. apply XV3_inj in AX.
    destruct (t3_forward w), axis as [x y z], c as [cx cy cz]. unfold Rlin3 in *. cbn in *. injection AX as X Y Z. xcbv. cbn. xeqs.
    + transitivity (cx + (m4_0 * x + m4_1 * y + m4_2 * z) * s); [ring | rewrite X; ring].
    + transitivity (cy + (m4_4 * x + m4_5 * y + m4_6 * z) * s); [ring | rewrite Y; ring].
    + transitivity (cz + (m4_8 * x + m4_9 * y + m4_10 * z) * s); [ring | rewrite Z; ring].
  - intros N p. rewrite G, xp3_sub. rewrite (C42_rodrigues_pf axis _ a H). cbv zeta. rewrite xv3_normalize by exact H. fold (Runit axis).
    assert (AXE : axis = mkVector3 (v3x (Runit axis) * Rnorm3 axis) (v3y (Runit axis) * Rnorm3 axis) (v3z (Runit axis) * Rnorm3 axis)) by (unfold Runit; destruct axis; cbn; f_equal; field; lra).
    intros E. set (n := Rnorm3 axis) in *. set (k := Runit axis) in *. clearbody k. destruct p as [px py pz], c as [cx cy cz], k as [kx ky kz].
    revert E. xcbv. cbn. intros E. injection E as E1 E2 E3. unfold Rdot3 in U. cbn in U. set (q := cos a) in *. set (s := sin a) in *.
    set (dx := px - cx) in *. set (dy := py - cy) in *. set (dz := pz - cz) in *. set (m := kx * dx + ky * dy + kz * dz).
    set (wx := dx - kx * m). set (wy := dy - ky * m). set (wz := dz - kz * m).
    assert (F1 : (q - 1) * wx + s * (ky * dz - kz * dy) = 0) by (unfold wx, m, dx, dy, dz in *; lra).
    assert (F2 : (q - 1) * wy + s * (kz * dx - kx * dz) = 0) by (unfold wy, m, dx, dy, dz in *; lra).
    assert (F3 : (q - 1) * wz + s * (kx * dy - ky * dx) = 0) by (unfold wz, m, dx, dy, dz in *; lra).
    assert (Z : (q - 1) * (wx * wx + wy * wy + wz * wz) = 0).
    { transitivity (wx * ((q - 1) * wx + s * (ky * dz - kz * dy)) + wy * ((q - 1) * wy + s * (kz * dx - kx * dz)) + wz * ((q - 1) * wz + s * (kx * dy - ky * dx))); [unfold wx, wy, wz; ring | rewrite F1, F2, F3; ring]. }
    apply Rmult_integral in Z. destruct Z as [Z|Z]; [lra|]. assert (WX : wx = 0) by nra. assert (WY : wy = 0) by nra. assert (WZ : wz = 0) by nra.
    exists (m / n). rewrite AXE. xcbv. cbn [v3x v3y v3z XP3 XV3 p3x p3y p3z]. xeqs.
    + transitivity (cx + kx * m); [unfold wx, dx in WX; lra | field; lra].
    + transitivity (cy + ky * m); [unfold wy, dy in WY; lra | field; lra].
    + transitivity (cz + kz * m); [unfold wz, dz in WZ; lra | field; lra].
Qed.
