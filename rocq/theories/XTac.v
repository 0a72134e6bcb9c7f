(** Unfolding tactics for computing the model at the exact scalar type on finite inputs. *)
From Coq Require Import Reals.
From Verif Require Import Scalar Types Vector2 Vector3 Point2 Point3 Ray BoundingBox2 BoundingBox3 Transform2 Transform3
  XReal SpecReal.

Ltac xcbv := cbv beta iota zeta delta [
  s_min s_max s_length s_is_shorter_than s_is_longer_than s_shortest s_longest s_distance s_is_closer_to
  s_is_farther_from s_closest s_farthest v2_new v2_zero v2_x_axis v2_y_axis v2_axis v2_floor v2_ceil v2_round
  v2_trunc v2_fract v2_abs v2_min_dimension v2_max_dimension v2_index v2_index_set v2_permute v2_min v2_max
  v2_dot v2_length v2_is_shorter_than v2_is_longer_than v2_shortest v2_longest v2_add v2_add_assign v2_sub
  v2_sub_assign v2_neg v2_mul v2_mul_assign v2_lmul v2_div v2_div_assign v2_from v2_normalize v3_new v3_zero
  v3_x_axis v3_y_axis v3_z_axis v3_axis v3_floor v3_ceil v3_round v3_trunc v3_fract v3_abs v3_min_dimension
  v3_max_dimension v3_index v3_index_set v3_permute v3_min v3_max v3_dot v3_cross v3_length v3_is_shorter_than
  v3_is_longer_than v3_shortest v3_longest v3_add v3_add_assign v3_sub v3_sub_assign v3_neg v3_mul v3_mul_assign
  v3_lmul v3_div v3_div_assign v3_from v3_normalize p2_new p2_origin p2_floor p2_ceil p2_round p2_trunc p2_fract
  p2_abs p2_min_dimension p2_max_dimension p2_index p2_index_set p2_permute p2_min p2_max p2_add p2_add_assign
  p2_sub_v p2_sub_assign p2_sub p2_neg p2_mul p2_mul_assign p2_lmul p2_div p2_div_assign p2_from p2_distance
  p2_is_closer_to p2_is_farther_from p2_closest p2_farthest p3_new p3_origin p3_floor p3_ceil p3_round p3_trunc
  p3_fract p3_abs p3_min_dimension p3_max_dimension p3_index p3_index_set p3_permute p3_min p3_max p3_add
  p3_add_assign p3_sub_v p3_sub_assign p3_sub p3_neg p3_mul p3_mul_assign p3_lmul p3_div p3_div_assign p3_from
  p3_distance p3_is_closer_to p3_is_farther_from p3_closest p3_farthest r2_new r2_at r3_new r3_at bb2_new
  bb2_empty bb2_infinite bb2_width bb2_height bb2_size bb2_extent bb2_diagonal bb2_min_dimension
  bb2_max_dimension bb2_area bb2_center bb2_overlaps bb2_is_inside bb2_union bb2_union_point bb2_intersect
  bb2_intersect_ray bb3_new bb3_empty bb3_infinite bb3_width bb3_height bb3_depth bb3_size bb3_extent
  bb3_diagonal bb3_min_dimension bb3_max_dimension bb3_surface_area bb3_volume bb3_center bb3_overlaps
  bb3_is_inside bb3_union bb3_union_point bb3_intersect bb3_intersect_ray m3_new m3_identity m3_translate
  m3_rotate m3_scale m3_scale_uniform m3_transpose m3_det m3_inverse m3_map m3_muls m3_mul_assign m3_lmuls
  m3_divs m3_div_assign m3_mul_point p2_mul_m3 m3_mul_vector v2_mul_m3 m3_mul t2_new t2_identity t2_translate
  t2_rotate t2_scale t2_scale_uniform t2_and_then t2_inverse t2_transform_point t2_transform_vector
  t2_transform_ray t2_transform_bb t2_try_from m4_new m4_identity m4_translate m4_rotate_x m4_rotate_y
  m4_rotate_z m4_rotate_axis m4_scale m4_scale_uniform m4_inverse_look_at m4_transpose m4_map m4_muls
  m4_mul_assign m4_lmuls m4_divs m4_div_assign m4_mul_point p3_mul_m4 m4_mul_vector v3_mul_m4 m4_mul t3_new
  t3_identity t3_translate t3_rotate_x t3_rotate_y t3_rotate_z t3_rotate_axis t3_scale t3_scale_uniform
  t3_and_then t3_inverse t3_transform_point t3_transform_vector t3_transform_ray t3_transform_bb p2x p2y p3x p3y
  p3z v2x v2y v3x v3y v3z r2_origin r2_direction r3_origin r3_direction bb2_min bb2_max bb3_min bb3_max
  t2_forward t2_inv t3_forward t3_inv m3_0 m3_1 m3_2 m3_3 m3_4 m3_5 m3_6 m3_7 m3_8 m4_0 m4_1 m4_2 m4_3 m4_4 m4_5
  m4_6 m4_7 m4_8 m4_9 m4_10 m4_11 m4_12 m4_13 m4_14 m4_15 szero sone shalf stwo sinf sninf sadd ssub smul sdiv
  sneg sabs ssqrt sfloor sceil sround strunc sfract srecip sfmin sfmax ssin_cos slt sle seq snan xreal_ops
  xreal_ops xadd xsub xmul xneg xabs XP2 XP3 XV2 XV3 XR2 XR3 XB2 XB3 XM3 XM4 XT2 XT3].
Ltac xcbv_in H := cbv beta iota zeta delta [
  s_min s_max s_length s_is_shorter_than s_is_longer_than s_shortest s_longest s_distance s_is_closer_to
  s_is_farther_from s_closest s_farthest v2_new v2_zero v2_x_axis v2_y_axis v2_axis v2_floor v2_ceil v2_round
  v2_trunc v2_fract v2_abs v2_min_dimension v2_max_dimension v2_index v2_index_set v2_permute v2_min v2_max
  v2_dot v2_length v2_is_shorter_than v2_is_longer_than v2_shortest v2_longest v2_add v2_add_assign v2_sub
  v2_sub_assign v2_neg v2_mul v2_mul_assign v2_lmul v2_div v2_div_assign v2_from v2_normalize v3_new v3_zero
  v3_x_axis v3_y_axis v3_z_axis v3_axis v3_floor v3_ceil v3_round v3_trunc v3_fract v3_abs v3_min_dimension
  v3_max_dimension v3_index v3_index_set v3_permute v3_min v3_max v3_dot v3_cross v3_length v3_is_shorter_than
  v3_is_longer_than v3_shortest v3_longest v3_add v3_add_assign v3_sub v3_sub_assign v3_neg v3_mul v3_mul_assign
  v3_lmul v3_div v3_div_assign v3_from v3_normalize p2_new p2_origin p2_floor p2_ceil p2_round p2_trunc p2_fract
  p2_abs p2_min_dimension p2_max_dimension p2_index p2_index_set p2_permute p2_min p2_max p2_add p2_add_assign
  p2_sub_v p2_sub_assign p2_sub p2_neg p2_mul p2_mul_assign p2_lmul p2_div p2_div_assign p2_from p2_distance
  p2_is_closer_to p2_is_farther_from p2_closest p2_farthest p3_new p3_origin p3_floor p3_ceil p3_round p3_trunc
  p3_fract p3_abs p3_min_dimension p3_max_dimension p3_index p3_index_set p3_permute p3_min p3_max p3_add
  p3_add_assign p3_sub_v p3_sub_assign p3_sub p3_neg p3_mul p3_mul_assign p3_lmul p3_div p3_div_assign p3_from
  p3_distance p3_is_closer_to p3_is_farther_from p3_closest p3_farthest r2_new r2_at r3_new r3_at bb2_new
  bb2_empty bb2_infinite bb2_width bb2_height bb2_size bb2_extent bb2_diagonal bb2_min_dimension
  bb2_max_dimension bb2_area bb2_center bb2_overlaps bb2_is_inside bb2_union bb2_union_point bb2_intersect
  bb2_intersect_ray bb3_new bb3_empty bb3_infinite bb3_width bb3_height bb3_depth bb3_size bb3_extent
  bb3_diagonal bb3_min_dimension bb3_max_dimension bb3_surface_area bb3_volume bb3_center bb3_overlaps
  bb3_is_inside bb3_union bb3_union_point bb3_intersect bb3_intersect_ray m3_new m3_identity m3_translate
  m3_rotate m3_scale m3_scale_uniform m3_transpose m3_det m3_inverse m3_map m3_muls m3_mul_assign m3_lmuls
  m3_divs m3_div_assign m3_mul_point p2_mul_m3 m3_mul_vector v2_mul_m3 m3_mul t2_new t2_identity t2_translate
  t2_rotate t2_scale t2_scale_uniform t2_and_then t2_inverse t2_transform_point t2_transform_vector
  t2_transform_ray t2_transform_bb t2_try_from m4_new m4_identity m4_translate m4_rotate_x m4_rotate_y
  m4_rotate_z m4_rotate_axis m4_scale m4_scale_uniform m4_inverse_look_at m4_transpose m4_map m4_muls
  m4_mul_assign m4_lmuls m4_divs m4_div_assign m4_mul_point p3_mul_m4 m4_mul_vector v3_mul_m4 m4_mul t3_new
  t3_identity t3_translate t3_rotate_x t3_rotate_y t3_rotate_z t3_rotate_axis t3_scale t3_scale_uniform
  t3_and_then t3_inverse t3_transform_point t3_transform_vector t3_transform_ray t3_transform_bb p2x p2y p3x p3y
  p3z v2x v2y v3x v3y v3z r2_origin r2_direction r3_origin r3_direction bb2_min bb2_max bb3_min bb3_max
  t2_forward t2_inv t3_forward t3_inv m3_0 m3_1 m3_2 m3_3 m3_4 m3_5 m3_6 m3_7 m3_8 m4_0 m4_1 m4_2 m4_3 m4_4 m4_5
  m4_6 m4_7 m4_8 m4_9 m4_10 m4_11 m4_12 m4_13 m4_14 m4_15 szero sone shalf stwo sinf sninf sadd ssub smul sdiv
  sneg sabs ssqrt sfloor sceil sround strunc sfract srecip sfmin sfmax ssin_cos slt sle seq snan xreal_ops
  xreal_ops xadd xsub xmul xneg xabs XP2 XP3 XV2 XV3 XR2 XR3 XB2 XB3 XM3 XM4 XT2 XT3] in H.
