{
 "claims": [
  {
   "property": "C01",
   "status": "proved",
   "theorems": [
    "C01_scalar_min",
    "C01_scalar_max"
   ],
   "note": "Scalar min/max order law and NaN handling"
  },
  {
   "property": "C02",
   "status": "proved",
   "theorems": [
    "C02_point_min_max_2d",
    "C02_vector_min_max_2d",
    "C02_point_min_max_3d",
    "C02_vector_min_max_3d"
   ],
   "note": "Point and vector min/max are the element-wise lattice operations"
  },
  {
   "property": "C03",
   "status": "proved",
   "theorems": [
    "C03_new_seen_through_is_inside_2d",
    "C03_new_seen_through_is_inside_3d",
    "C03_new_is_smallest_box_2d",
    "C03_new_is_smallest_box_3d"
   ],
   "note": "BoundingBox::new builds the smallest ordered box of two points"
  },
  {
   "property": "C04",
   "status": "proved",
   "theorems": [
    "C04_is_inside_2d",
    "C04_nan_is_outside_2d",
    "C04_empty_contains_nothing_2d",
    "C04_infinite_contains_all_2d",
    "C04_is_inside_3d",
    "C04_nan_is_outside_3d",
    "C04_empty_contains_nothing_3d",
    "C04_infinite_contains_all_3d"
   ],
   "note": "is_inside is exactly the closed box; empty and infinite are the extremes"
  },
  {
   "property": "C05",
   "status": "proved",
   "theorems": [
    "C05_union_seen_through_is_inside_2d",
    "C05_union_seen_through_is_inside_3d",
    "C05_union_is_smallest_box_2d",
    "C05_union_is_smallest_box_3d"
   ],
   "note": "Union of boxes is the smallest box containing both"
  },
  {
   "property": "C06",
   "status": "proved",
   "theorems": [
    "C06_union_algebra_2d",
    "C06_union_algebra_3d"
   ],
   "note": "Union algebra"
  },
  {
   "property": "C07",
   "status": "proved",
   "theorems": [
    "C07_union_with_empty_2d",
    "C07_union_with_empty_3d",
    "C07_union_of_empties_refuted_2d",
    "C07_empty_neutral_2d",
    "C07_union_of_empties_refuted_3d",
    "C07_empty_neutral_3d"
   ],
   "note": "Exact characterisation. The law 'union(empty, empty) contains nothing' is false of the code; C07_union_of_empties_refuted_* shows the result contains every NaN-free point."
  },
  {
   "property": "C08",
   "status": "proved",
   "theorems": [
    "C08_accumulated_seen_through_is_inside_2d",
    "C08_accumulated_seen_through_is_inside_3d",
    "C08_accumulated_box_is_tight_2d",
    "C08_accumulation_order_irrelevant_2d",
    "C08_accumulated_box_is_tight_3d",
    "C08_accumulation_order_irrelevant_3d"
   ],
   "note": "Accumulating points from empty() gives the tight bounding box"
  },
  {
   "property": "C09",
   "status": "proved",
   "theorems": [
    "C09_overlaps_seen_through_is_inside_2d",
    "C09_overlaps_seen_through_is_inside_3d",
    "C09_overlaps_symmetric_2d",
    "C09_overlaps_iff_common_point_2d",
    "C09_overlaps_symmetric_3d",
    "C09_overlaps_iff_common_point_3d"
   ],
   "note": "overlaps decides whether the boxes share a point"
  },
  {
   "property": "C10",
   "status": "proved",
   "theorems": [
    "C10_intersect_seen_through_is_inside_2d",
    "C10_intersect_seen_through_is_inside_3d",
    "C10_intersect_none_2d",
    "C10_intersect_some_2d",
    "C10_intersect_none_3d",
    "C10_intersect_some_3d"
   ],
   "note": "Box intersection is set intersection"
  },
  {
   "property": "C11",
   "status": "proved",
   "theorems": [
    "C11_intersect_empty_iff_2d",
    "C11_intersect_empty_iff_3d",
    "C11_intersect_infinite_empty_refuted_2d",
    "C11_intersect_empty_none_2d",
    "C11_intersect_infinite_empty_refuted_3d",
    "C11_intersect_empty_none_3d"
   ],
   "note": "Exact characterisation (iff). The law 'always None' is false of the code: C11_intersect_infinite_empty_refuted_*."
  },
  {
   "property": "C12",
   "status": "proved",
   "theorems": [
    "C12_corner_in_range_2d",
    "C12_corner_out_of_range_panics_2d",
    "C12_corner_out_of_range_release_2d",
    "C12_corner_inside_2d",
    "C12_corner_enumerates_2d",
    "C12_corners_distinct_2d",
    "C12_corner_in_range_3d",
    "C12_corner_out_of_range_panics_3d",
    "C12_corner_out_of_range_release_3d",
    "C12_corner_inside_3d",
    "C12_corner_enumerates_3d",
    "C12_corners_distinct_3d"
   ],
   "note": "corner(i) enumerates exactly the corners; index contract"
  },
  {
   "property": "C13",
   "status": "proved",
   "theorems": [
    "C13_center_exact_2d",
    "C13_center_exact_3d",
    "C13_center_inside_2d",
    "C13_center_inside_3d",
    "C13_overflow_center_outside"
   ],
   "note": "center lies inside the box"
  },
  {
   "property": "C14",
   "status": "proved",
   "theorems": [
    "C14_extents_agree_2d",
    "C14_extents_agree_3d",
    "C14_extent_nonnegative_2d",
    "C14_extent_nonnegative_3d",
    "C14_extent_monotone_2d",
    "C14_extent_monotone_3d",
    "C14_box_min_dimension_2d",
    "C14_box_max_dimension_2d",
    "C14_box_min_dimension_3d",
    "C14_box_max_dimension_3d"
   ],
   "note": "Extents agree and are non-negative; min/max_dimension of a box pick the smallest/largest extent"
  },
  {
   "property": "C15",
   "status": "proved",
   "theorems": [
    "C15_area_2d",
    "C15_volume_and_surface_3d",
    "C15_area_float",
    "C15_volume_surface_float",
    "C15_area_monotone_float",
    "C15_volume_surface_monotone_float"
   ],
   "note": "area, surface_area and volume"
  },
  {
   "property": "C16",
   "status": "proved",
   "theorems": [
    "C16_ray_intersection_2d",
    "C16_ray_intersection_3d"
   ],
   "note": "Ray-box intersection is exact (no axis-parallel grazing)"
  },
  {
   "property": "C17",
   "status": "proved",
   "theorems": [
    "C17_what_is_reported_2d",
    "C17_what_is_reported_3d",
    "C17_every_face_ray_is_missed_2d",
    "C17_face_ray_refuted_2d",
    "C17_every_face_ray_is_missed_3d",
    "C17_face_ray_refuted_3d"
   ],
   "note": "Exact characterisation with the special case separated out. The claim that a ray along a face is reported is false of the code: C17_face_ray_refuted_*, and every such ray is missed: C17_every_face_ray_is_missed_*."
  },
  {
   "property": "C18",
   "status": "proved",
   "theorems": [
    "C18_ray_range_well_formed_2d",
    "C18_ray_range_well_formed_3d"
   ],
   "note": "Ray-box result is always a well-formed range"
  },
  {
   "property": "C19",
   "status": "proved",
   "theorems": [
    "C19_every_ray_hits_the_empty_box_2d",
    "C19_every_ray_hits_the_empty_box_3d",
    "C19_empty_box_refuted_2d",
    "C19_empty_box_refuted_3d",
    "C19_infinite_box_2d",
    "C19_infinite_box_3d",
    "C19_empty_and_infinite_box_float_2d",
    "C19_empty_and_infinite_box_float_3d"
   ],
   "note": "Exact characterisation; the expected 'a ray never hits empty()' is false of the code (C19_empty_box_refuted_*)."
  },
  {
   "property": "C20",
   "status": "proved",
   "theorems": [
    "C20_dot_symmetric_2d",
    "C20_dot_symmetric_3d",
    "C20_dot_value_2d",
    "C20_dot_value_3d",
    "C20_dot_bilinear_2d",
    "C20_dot_bilinear_3d",
    "C20_dot_positive_definite_2d",
    "C20_dot_positive_definite_3d",
    "C20_cauchy_schwarz_2d",
    "C20_cauchy_schwarz_3d"
   ],
   "note": "Dot product: symmetry and bilinearity"
  },
  {
   "property": "C21",
   "status": "proved",
   "theorems": [
    "C21_cross_anticommutative_float",
    "C21_cross_value",
    "C21_cross_orthogonal",
    "C21_cross_anticommutative_bilinear",
    "C21_cross_lagrange",
    "C21_cross_zero_iff_parallel",
    "C21_cross_jacobi",
    "C21_cross_right_handed"
   ],
   "note": "Cross product laws"
  },
  {
   "property": "C22",
   "status": "proved",
   "theorems": [
    "C22_length_float_2d",
    "C22_length_float_3d",
    "C22_length_value_2d",
    "C22_length_value_3d",
    "C22_length_zero_iff_2d",
    "C22_length_zero_iff_3d",
    "C22_length_homogeneous_2d",
    "C22_length_homogeneous_3d",
    "C22_length_triangle_2d",
    "C22_length_triangle_3d"
   ],
   "note": "Vector length is a norm"
  },
  {
   "property": "C23",
   "status": "proved",
   "theorems": [
    "C23_normalize_unit_2d",
    "C23_normalize_unit_3d",
    "C23_normalize_idempotent_2d",
    "C23_normalize_idempotent_3d",
    "C23_normalize_scaling_2d",
    "C23_normalize_scaling_3d"
   ],
   "note": "normalize gives a unit vector in the same direction"
  },
  {
   "property": "C24",
   "status": "proved",
   "theorems": [
    "C24_normalize_accurate_2d",
    "C24_normalize_accurate_3d",
    "C24_tiny_vector_refuted",
    "C24_huge_vector_refuted"
   ],
   "note": "Proved on the range where it holds, with witnesses that it fails on both sides of the range (C24_tiny_vector_refuted, C24_huge_vector_refuted)."
  },
  {
   "property": "C25",
   "status": "proved",
   "theorems": [
    "C25_relative_length_float_2d",
    "C25_relative_length_float_3d",
    "C25_relative_length_exact_2d",
    "C25_relative_length_exact_3d"
   ],
   "note": "Relative length comparisons agree with length()"
  },
  {
   "property": "C26",
   "status": "proved",
   "theorems": [
    "C26_scalar_length",
    "C26_scalar_distance"
   ],
   "note": "Scalar length and distance"
  },
  {
   "property": "C27",
   "status": "proved",
   "theorems": [
    "C27_distance_float_2d",
    "C27_distance_float_3d",
    "C27_distance_value_2d",
    "C27_distance_value_3d",
    "C27_distance_metric_2d",
    "C27_distance_metric_3d"
   ],
   "note": "Point distance is a metric"
  },
  {
   "property": "C28",
   "status": "proved",
   "theorems": [
    "C28_relative_distance_float_2d",
    "C28_relative_distance_float_3d",
    "C28_relative_distance_exact_2d",
    "C28_relative_distance_exact_3d"
   ],
   "note": "closest/farthest agree with distance()"
  },
  {
   "property": "C29",
   "status": "proved",
   "theorems": [
    "C29_points_and_vectors_2d",
    "C29_points_and_vectors_3d",
    "C29_vector_space_2d",
    "C29_vector_space_3d",
    "C29_scalar_division_2d",
    "C29_scalar_division_3d",
    "C29_conversions_2d",
    "C29_conversions_3d"
   ],
   "note": "Affine arithmetic of points and vectors"
  },
  {
   "property": "C30",
   "status": "proved",
   "theorems": [
    "C30_point_compound_assignment_2d",
    "C30_vector_compound_assignment_2d",
    "C30_point_compound_assignment_3d",
    "C30_vector_compound_assignment_3d",
    "C30_matrix_compound_assignment_3x3",
    "C30_matrix_compound_assignment_4x4"
   ],
   "note": "Compound assignment agrees with the binary operator; scalar-on-the-left agrees"
  },
  {
   "property": "C31",
   "status": "proved",
   "theorems": [
    "C31_point_index_history_2d",
    "C31_vector_index_history_2d",
    "C31_dimension_equality_2d",
    "C31_permute_2d",
    "C31_axis_2d",
    "C31_point_index_history_3d",
    "C31_vector_index_history_3d",
    "C31_dimension_equality_3d",
    "C31_permute_3d",
    "C31_axis_3d"
   ],
   "note": "Indexing by dimension behaves like a store"
  },
  {
   "property": "C32",
   "status": "proved",
   "theorems": [
    "C32_point_min_dimension_2d",
    "C32_point_max_dimension_2d",
    "C32_vector_min_dimension_2d",
    "C32_vector_max_dimension_2d",
    "C32_point_min_dimension_3d",
    "C32_point_max_dimension_3d",
    "C32_vector_min_dimension_3d",
    "C32_vector_max_dimension_3d"
   ],
   "note": "min_dimension/max_dimension of points and vectors"
  },
  {
   "property": "C33",
   "status": "proved",
   "theorems": [
    "C33_point_elementwise_2d",
    "C33_point_elementwise_3d",
    "C33_vector_elementwise_2d",
    "C33_vector_elementwise_3d",
    "C33_integers_are_unique"
   ],
   "note": "Element-wise floor/ceil/round/trunc/fract/abs"
  },
  {
   "property": "C34",
   "status": "proved",
   "theorems": [
    "C34_matrix_history_3x3",
    "C34_matrix_set_3x3",
    "C34_matrix_new_row_major_3x3",
    "C34_matrix_extensional_3x3",
    "C34_matrix_history_4x4",
    "C34_matrix_set_4x4",
    "C34_matrix_new_row_major_4x4",
    "C34_matrix_extensional_4x4"
   ],
   "note": "Matrix element access behaves like a row-major store"
  },
  {
   "property": "C35",
   "status": "proved",
   "theorems": [
    "C35_every_profile_3x3",
    "C35_every_profile_4x4",
    "C35_out_of_range_panics_3x3",
    "C35_release_index_3x3",
    "C35_out_of_range_refuted_3x3",
    "C35_out_of_range_panics_4x4",
    "C35_release_index_4x4",
    "C35_out_of_range_refuted_4x4"
   ],
   "note": "Exact characterisation for both profiles; the claim 'always rejected' is false in release builds (C35_out_of_range_refuted_*)."
  },
  {
   "property": "C36",
   "status": "proved",
   "theorems": [
    "C36_transpose_get_3x3",
    "C36_transpose_involution_3x3",
    "C36_transpose_product_3x3",
    "C36_row_times_matrix_3x3",
    "C36_transpose_get_4x4",
    "C36_transpose_involution_4x4",
    "C36_transpose_product_4x4",
    "C36_row_times_matrix_4x4"
   ],
   "note": "Transpose"
  },
  {
   "property": "C37",
   "status": "proved",
   "theorems": [
    "C37_identity_neutral_float_2d",
    "C37_identity_neutral_float_3d",
    "C37_product_entries_3x3",
    "C37_product_entries_4x4",
    "C37_product_algebra_3x3",
    "C37_product_algebra_4x4",
    "C37_scalar_entries_3x3",
    "C37_scalar_entries_4x4"
   ],
   "note": "Matrix product is the mathematical product"
  },
  {
   "property": "C38",
   "status": "proved",
   "theorems": [
    "C38_inverse_ok_3x3",
    "C38_inverse_err_3x3",
    "C38_ok_iff_invertible_3x3",
    "C38_inverse_ok_4x4",
    "C38_inverse_err_4x4",
    "C38_ok_iff_invertible_4x4",
    "C38_inverse_never_panics_4x4"
   ],
   "note": "Matrix inverse succeeds exactly on invertible matrices and is the two-sided inverse"
  },
  {
   "property": "C39",
   "status": "proved",
   "theorems": [
    "C39_small_integers_3x3",
    "C39_small_integers_4x4",
    "C39_err_means_nearly_singular_3x3",
    "C39_err_means_nearly_singular_4x4",
    "C39_invertible_rejected_refuted",
    "C39_nan_result_refuted",
    "C39_singular_accepted_refuted"
   ],
   "note": "Proved in the stated form; the three C39_*_refuted theorems show that the unrestricted equivalence is false of the code."
  },
  {
   "property": "C40",
   "status": "proved",
   "theorems": [
    "C40_identity_2d",
    "C40_identity_3d",
    "C40_translate_2d",
    "C40_translate_3d",
    "C40_scale_2d",
    "C40_scale_3d",
    "C40_translate_compose_2d",
    "C40_translate_compose_3d"
   ],
   "note": "Translation and scaling act exactly, in floating point"
  },
  {
   "property": "C41",
   "status": "proved",
   "theorems": [
    "C41_rotate_matrix",
    "C41_determinant_one",
    "C41_rotation_isometry_2d",
    "C41_rotation_isometry_x",
    "C41_rotation_isometry_y",
    "C41_rotation_isometry_z",
    "C41_compose_angles",
    "C41_zero_angle",
    "C41_orientation",
    "C41_inverse_is_negative_angle"
   ],
   "note": "Rotations are proper rotations with the documented orientation"
  },
  {
   "property": "C42",
   "status": "proved",
   "theorems": [
    "C42_rodrigues",
    "C42_axis_rotation_isometry",
    "C42_axis_rotation_determinant",
    "C42_coordinate_axes",
    "C42_direction_only"
   ],
   "note": "rotate_axis is Rodrigues' rotation"
  },
  {
   "property": "C43",
   "status": "proved",
   "theorems": [
    "C43_mutually_inverse_2d",
    "C43_mutually_inverse_3d",
    "C43_point_round_trip_2d",
    "C43_point_round_trip_3d",
    "C43_affine_closed_2d",
    "C43_affine_closed_3d",
    "C43_affine_round_trip_2d",
    "C43_affine_round_trip_3d"
   ],
   "note": "Every reachable transform holds mutually inverse matrices"
  },
  {
   "property": "C44",
   "status": "proved",
   "theorems": [
    "C44_and_then_point_2d",
    "C44_and_then_point_3d",
    "C44_and_then_affine_2d",
    "C44_and_then_affine_3d",
    "C44_and_then_vector_2d",
    "C44_and_then_vector_3d",
    "C44_composite_of_a_list_2d",
    "C44_composite_of_a_list_3d",
    "C44_composite_of_a_list_affine_2d",
    "C44_composite_of_a_list_affine_3d"
   ],
   "note": "and_then applies first self, then next"
  },
  {
   "property": "C45",
   "status": "proved",
   "theorems": [
    "C45_inverse_structural_2d",
    "C45_transform_by_inverse_2d",
    "C45_inverse_structural_3d",
    "C45_transform_by_inverse_3d"
   ],
   "note": "Transform inverse is structural"
  },
  {
   "property": "C46",
   "status": "proved",
   "theorems": [
    "C46_ray_at_2d",
    "C46_ray_at_3d"
   ],
   "note": "Transforming a ray commutes with evaluating it"
  },
  {
   "property": "C47",
   "status": "proved",
   "theorems": [
    "C47_infinite_box_refuted_2d",
    "C47_infinite_box_refuted_3d",
    "C47_result_2d",
    "C47_result_3d",
    "C47_containment_iff_2d",
    "C47_containment_iff_3d",
    "C47_translate_scale_2d",
    "C47_translate_scale_3d",
    "C47_containment_refuted_2d",
    "C47_containment_refuted_3d"
   ],
   "note": "Exact characterisation (iff); 'always contains' is false of the code (C47_containment_refuted_*, C47_infinite_box_refuted_*)."
  },
  {
   "property": "C48",
   "status": "proved",
   "theorems": [
    "C48_look_at_ok",
    "C48_look_at_frame",
    "C48_look_at_rigid"
   ],
   "note": "look_at maps the camera frame"
  },
  {
   "property": "C49",
   "status": "proved",
   "theorems": [
    "C49_degenerate_gives_nan_float",
    "C49_degenerate_gives_nan",
    "C49_degenerate_refuted",
    "C49_look_at_result"
   ],
   "note": "Exact characterisation; 'returns Err for degenerate parameters' is false of the code (C49_degenerate_refuted)."
  },
  {
   "property": "C50",
   "status": "proved",
   "theorems": [
    "C50_try_from_2d",
    "C50_try_from_3d"
   ],
   "note": "try_from keeps the matrix and adds its inverse"
  },
  {
   "property": "C51",
   "status": "proved",
   "theorems": [
    "C51_point_projective_2d",
    "C51_point_projective_3d",
    "C51_vector_linear_2d",
    "C51_vector_linear_3d",
    "C51_vector_laws_2d",
    "C51_vector_laws_3d",
    "C51_affine_difference_2d",
    "C51_affine_difference_3d"
   ],
   "note": "Points transform projectively, vectors linearly"
  },
  {
   "property": "C52",
   "status": "proved",
   "theorems": [
    "C52_at_zero_is_origin_2d",
    "C52_at_zero_is_origin_3d",
    "C52_ray_at_exact_2d",
    "C52_ray_at_exact_3d"
   ],
   "note": "Ray evaluation"
  },
  {
   "property": "C53",
   "status": "proved",
   "theorems": [
    "C53_derived_equality"
   ],
   "note": "Derived equality"
  },
  {
   "property": "C54",
   "status": "proved",
   "theorems": [
    "C54_dot_accurate_2d",
    "C54_dot_accurate_3d"
   ],
   "note": "Dot product and squared length are accurate"
  },
  {
   "property": "C55",
   "status": "proved",
   "theorems": [
    "C55_length_accurate_2d",
    "C55_length_accurate_3d",
    "C55_distance_accurate_2d",
    "C55_distance_accurate_3d"
   ],
   "note": "length and distance are accurate when the square does not under/overflow"
  },
  {
   "property": "C56",
   "status": "proved",
   "theorems": [
    "C56_matrix_vector_accurate_2d",
    "C56_matrix_vector_accurate_3d",
    "C56_matrix_point_accurate_2d",
    "C56_matrix_point_accurate_3d"
   ],
   "note": "Matrix-vector and matrix-point products are accurate"
  },
  {
   "property": "C57",
   "status": "proved",
   "theorems": [
    "C57_origin_inside_hits_2d",
    "C57_origin_inside_hits_3d"
   ],
   "note": "A ray starting inside the box hits it"
  },
  {
   "property": "C58",
   "status": "proved",
   "theorems": [
    "C58_monotone_2d",
    "C58_monotone_3d",
    "C58_union_keeps_hits_2d",
    "C58_union_keeps_hits_3d"
   ],
   "note": "Ray-box intersection is monotone under box inclusion"
  },
  {
   "property": "C59",
   "status": "proved",
   "theorems": [
    "C59_cross_accurate",
    "C59_ray_at_accurate_2d",
    "C59_ray_at_accurate_3d",
    "C59_matrix_product_accurate_3x3",
    "C59_matrix_product_accurate_4x4"
   ],
   "note": "Cross product, ray evaluation and matrix product are accurate"
  },
  {
   "property": "C60",
   "status": "proved",
   "theorems": [
    "C60_growing_with_nan_2d",
    "C60_growing_with_nan_3d"
   ],
   "note": "Growing a box from points with NaN coordinates"
  },
  {
   "property": "C61",
   "status": "proved",
   "theorems": [
    "C61_history_seen_through_is_inside_2d",
    "C61_history_seen_through_is_inside_3d",
    "C61_history_is_smallest_box_2d",
    "C61_history_is_smallest_box_3d",
    "C61_history_order_irrelevant_2d",
    "C61_history_order_irrelevant_3d"
   ],
   "note": "Any history of unions with points and boxes gives the smallest box"
  },
  {
   "property": "C62",
   "status": "proved",
   "theorems": [
    "C62_intersect_algebra_2d",
    "C62_intersect_algebra_3d",
    "C62_absorption_2d",
    "C62_absorption_3d",
    "C62_inclusion_2d",
    "C62_inclusion_3d"
   ],
   "note": "Boxes form a lattice under union and intersect"
  },
  {
   "property": "C63",
   "status": "proved",
   "theorems": [
    "C63_hull_of_corners_2d",
    "C63_hull_of_corners_3d"
   ],
   "note": "A box is the hull of its corners"
  },
  {
   "property": "C64",
   "status": "proved",
   "theorems": [
    "C64_nearest_2d",
    "C64_nearest_3d",
    "C64_nan_candidate_forgets_2d",
    "C64_nan_candidate_forgets_3d",
    "C64_shortest_2d",
    "C64_shortest_3d",
    "C64_nearest_scalar",
    "C64_shortest_scalar"
   ],
   "note": "Searching a list with closest, farthest, shortest, longest"
  },
  {
   "property": "C65",
   "status": "proved",
   "theorems": [
    "C65_min_max_of_points_2d",
    "C65_min_max_of_points_3d",
    "C65_min_max_of_vectors_2d",
    "C65_min_max_of_vectors_3d",
    "C65_min_max_of_scalars"
   ],
   "note": "Minimum and maximum of a list of points ignore NaN coordinates"
  },
  {
   "property": "C66",
   "status": "proved",
   "theorems": [
    "C66_object_space_intersection_2d",
    "C66_object_space_intersection_3d"
   ],
   "note": "Intersecting a ray with a transformed box in object space"
  },
  {
   "property": "C67",
   "status": "proved",
   "theorems": [
    "C67_ray_equivariance_2d",
    "C67_ray_equivariance_3d",
    "C67_box_operations_2d",
    "C67_box_operations_3d"
   ],
   "note": "Axis-preserving transforms commute with the box operations"
  },
  {
   "property": "C68",
   "status": "proved",
   "theorems": [
    "C68_center_2d",
    "C68_center_3d"
   ],
   "note": "The centre of a transformed box is the transformed centre"
  },
  {
   "property": "C69",
   "status": "proved",
   "theorems": [
    "C69_ray_at_monotone_2d",
    "C69_ray_at_monotone_3d",
    "C69_inside_is_an_interval_2d",
    "C69_inside_is_an_interval_3d"
   ],
   "note": "Ray evaluation is monotone in floating point"
  },
  {
   "property": "C70",
   "status": "proved",
   "theorems": [
    "C70_length_monotone_2d",
    "C70_length_monotone_3d",
    "C70_distance_monotone_2d",
    "C70_distance_monotone_3d",
    "C70_farthest_point_is_a_corner_2d",
    "C70_farthest_point_is_a_corner_3d"
   ],
   "note": "Length and distance are monotone in floating point"
  },
  {
   "property": "C71",
   "status": "proved",
   "theorems": [
    "C71_minimum_corner_inside_2d",
    "C71_minimum_corner_inside_3d",
    "C71_faces_accurate_2d",
    "C71_faces_accurate_3d",
    "C71_identity_loses_points_refuted_2d",
    "C71_identity_loses_points_refuted_3d"
   ],
   "note": "Proved in the stated form (accuracy of the faces, minimum corner inside); 'contains the image of every point' is false of the code even for the identity: C71_identity_loses_points_refuted_*."
  },
  {
   "property": "C72",
   "status": "proved",
   "theorems": [
    "C72_range_covers_hits_2d",
    "C72_range_covers_hits_3d",
    "C72_range_interior_2d",
    "C72_range_interior_3d",
    "C72_range_near_box_2d",
    "C72_range_near_box_3d",
    "C72_miss_is_thin_2d",
    "C72_miss_is_thin_3d",
    "C72_entry_point_inside_refuted_2d",
    "C72_touching_ray_hits_refuted_2d"
   ],
   "note": "Proved in the stated form; that a touching ray is reported and that ray.at(start) is inside are false in floating point: C72_touching_ray_hits_refuted_2d, C72_entry_point_inside_refuted_2d."
  },
  {
   "property": "C73",
   "status": "proved",
   "theorems": [
    "C73_sums_exact_2d",
    "C73_sums_exact_3d",
    "C73_difference_round_trip_2d",
    "C73_difference_round_trip_3d",
    "C73_dot_exact_2d",
    "C73_dot_exact_3d",
    "C73_closer_exact_2d",
    "C73_closer_exact_3d",
    "C73_length_exact_2d",
    "C73_length_exact_3d",
    "C73_cross_exact",
    "C73_ray_at_exact_2d",
    "C73_ray_at_exact_3d",
    "C73_matrix_product_exact_2d",
    "C73_matrix_product_exact_3d",
    "C73_matrix_vector_exact_2d",
    "C73_matrix_vector_exact_3d",
    "C73_affine_point_exact_2d",
    "C73_affine_point_exact_3d",
    "C73_translate_round_trip_2d",
    "C73_translate_round_trip_3d",
    "C73_box_extent_center_exact_2d",
    "C73_box_extent_center_exact_3d",
    "C73_area_exact_2d",
    "C73_volume_surface_exact_3d"
   ],
   "note": "Coordinates on a binary grid compute exactly"
  },
  {
   "property": "C74",
   "status": "proved",
   "theorems": [
    "C74_arithmetic_2d",
    "C74_arithmetic_3d",
    "C74_dot_2d",
    "C74_dot_3d",
    "C74_cross",
    "C74_matrix_2d",
    "C74_matrix_3d",
    "C74_length_2d",
    "C74_length_3d",
    "C74_rounding_2d",
    "C74_rounding_3d",
    "C74_minmax_2d",
    "C74_minmax_3d",
    "C74_box_2d",
    "C74_box_3d",
    "C74_ray_2d",
    "C74_ray_3d"
   ],
   "note": "Negation passes through every operation"
  },
  {
   "property": "C75",
   "status": "proved",
   "theorems": [
    "C75_mirror_2d",
    "C75_mirror_3d",
    "C75_permute_2d",
    "C75_permute_3d"
   ],
   "note": "The ray-box test treats all axes and directions alike"
  },
  {
   "property": "C76",
   "status": "proved",
   "theorems": [
    "C76_unit_change_2d",
    "C76_unit_change_3d",
    "C76_sums_2d",
    "C76_sums_3d",
    "C76_dot_2d",
    "C76_dot_3d",
    "C76_cross",
    "C76_length_2d",
    "C76_length_3d",
    "C76_normalize_2d",
    "C76_normalize_3d",
    "C76_comparisons_2d",
    "C76_comparisons_3d",
    "C76_ray_at_2d",
    "C76_ray_at_3d",
    "C76_box_extent_center_2d",
    "C76_box_extent_center_3d",
    "C76_area_2d",
    "C76_volume_surface_3d",
    "C76_intersect_ray_2d",
    "C76_intersect_ray_3d",
    "C76_matrix_vector_2d",
    "C76_affine_point_2d",
    "C76_matrix_vector_3d",
    "C76_affine_point_3d"
   ],
   "note": "A change of units by a power of two is exact"
  },
  {
   "property": "C77",
   "status": "proved",
   "theorems": [
    "C77_dot_at_most_lengths_2d",
    "C77_dot_at_most_lengths_3d",
    "C77_distance_triangle_2d",
    "C77_distance_triangle_3d",
    "C77_length_triangle_2d",
    "C77_length_triangle_3d",
    "C77_unit_dot_2d",
    "C77_unit_dot_3d",
    "C77_exact_laws_refuted"
   ],
   "note": "Proved in the stated form, with the slack; the laws without slack are false in floating point: C77_exact_laws_refuted."
  },
  {
   "property": "C78",
   "status": "proved",
   "theorems": [
    "C78_rotation_accurate_2d",
    "C78_rotation_accurate_3d",
    "C78_rotation_round_trip_2d",
    "C78_rotation_round_trip_3d",
    "C78_rotation_keeps_length_2d",
    "C78_rotation_keeps_length_3d",
    "C78_axis_component_kept"
   ],
   "note": "Rotations are as accurate as the platform's sin_cos"
  },
  {
   "property": "C79",
   "status": "proved",
   "theorems": [
    "C79_inverse_accurate_3x3",
    "C79_inverse_accurate_4x4"
   ],
   "note": "Accuracy of a computed matrix inverse"
  },
  {
   "property": "C80",
   "status": "proved",
   "theorems": [
    "C80_look_at_ok",
    "C80_camera_frame",
    "C80_eye_to_origin",
    "C80_target_on_axis",
    "C80_lengths_kept",
    "C80_up_is_up",
    "C80_coordinates"
   ],
   "note": "look_at in floating point"
  },
  {
   "property": "C81",
   "status": "proved",
   "theorems": [
    "C81_stays_affine_2d",
    "C81_stays_affine_3d",
    "C81_point_is_origin_plus_vector_2d",
    "C81_point_is_origin_plus_vector_3d",
    "C81_chain_matrix_2d",
    "C81_chain_matrix_3d",
    "C81_chain_inverse_2d",
    "C81_chain_inverse_3d",
    "C81_chain_point_2d",
    "C81_chain_point_3d",
    "C81_chain_vector_2d",
    "C81_chain_vector_3d",
    "C81_steps_point_2d",
    "C81_steps_point_3d",
    "C81_steps_vector_2d",
    "C81_steps_vector_3d",
    "C81_and_then_agrees_2d",
    "C81_and_then_agrees_3d"
   ],
   "note": "Chains of transforms in floating point"
  },
  {
   "property": "C82",
   "status": "proved",
   "theorems": [
    "C82_undo_point_2d",
    "C82_undo_point_3d",
    "C82_undo_vector_2d",
    "C82_undo_vector_3d",
    "C82_translate_defect_2d",
    "C82_translate_defect_3d",
    "C82_undo_translate_2d",
    "C82_undo_translate_3d",
    "C82_undo_scale_2d",
    "C82_undo_scale_3d",
    "C82_and_then_defect_2d",
    "C82_and_then_defect_3d",
    "C82_try_from_defect_2d",
    "C82_try_from_defect_3d"
   ],
   "note": "Undoing a transform in floating point"
  },
  {
   "property": "C83",
   "status": "proved",
   "theorems": [
    "C83_evaluate_then_transform_2d",
    "C83_evaluate_then_transform_3d",
    "C83_transform_then_evaluate_2d",
    "C83_transform_then_evaluate_3d",
    "C83_ray_agrees_2d",
    "C83_ray_agrees_3d"
   ],
   "note": "Transforming a ray in floating point"
  },
  {
   "property": "C84",
   "status": "proved",
   "theorems": [
    "C84_identity_neutral_2d",
    "C84_identity_neutral_3d",
    "C84_scale_compose_2d",
    "C84_scale_compose_3d",
    "C84_rotation_opposite_2d",
    "C84_rotation_opposite_3d",
    "C84_rotation_none",
    "C84_rotation_angles_add_2d",
    "C84_rotation_angles_add_3d",
    "C84_axis_rotation"
   ],
   "note": "Algebra of the transform constructors in floating point"
  },
  {
   "property": "C85",
   "status": "proved",
   "theorems": [
    "C85_extent_accurate_2d",
    "C85_extent_accurate_3d",
    "C85_area_accurate_2d",
    "C85_volume_accurate_3d",
    "C85_surface_area_accurate_3d",
    "C85_center_accurate_2d",
    "C85_center_accurate_3d"
   ],
   "note": "Accuracy of the measures of a box in floating point"
  },
  {
   "property": "C86",
   "status": "proved",
   "theorems": [
    "C86_entry_on_near_face_2d",
    "C86_entry_on_near_face_3d",
    "C86_exit_on_far_face_2d",
    "C86_exit_on_far_face_3d",
    "C86_computed_points_near_box_2d",
    "C86_computed_points_near_box_3d"
   ],
   "note": "The points computed from a ray-box hit lie on the box, up to rounding"
  },
  {
   "property": "C87",
   "status": "proved",
   "theorems": [
    "C87_component_le_length_2d",
    "C87_component_le_length_3d",
    "C87_normalized_components_2d",
    "C87_normalized_components_3d",
    "C87_axis_length_2d",
    "C87_axis_length_3d",
    "C87_axis_normalize_2d",
    "C87_axis_normalize_3d",
    "C87_coordinate_difference_le_distance_2d",
    "C87_coordinate_difference_le_distance_3d",
    "C87_axis_distance_2d",
    "C87_axis_distance_3d",
    "C87_range_needed_2d",
    "C87_range_needed_3d"
   ],
   "note": "No component exceeds the length; lengths along an axis are exact"
  },
  {
   "property": "C88",
   "status": "proved",
   "theorems": [
    "C88_signed_permutation_2d",
    "C88_signed_permutation_3d",
    "C88_axis_camera",
    "C88_saxis_cross_is_cross"
   ],
   "note": "Axis permutations and cameras along an axis are exact"
  },
  {
   "property": "C89",
   "status": "proved",
   "theorems": [
    "C89_sums_2d",
    "C89_sums_3d",
    "C89_dot_2d",
    "C89_dot_3d",
    "C89_length_2d",
    "C89_length_3d",
    "C89_distance_2d",
    "C89_distance_3d",
    "C89_cross",
    "C89_ray_at_2d",
    "C89_ray_at_3d",
    "C89_matrix_vector_2d",
    "C89_matrix_vector_3d",
    "C89_affine_point_2d",
    "C89_affine_point_3d",
    "C89_matrix_product_2d",
    "C89_matrix_product_3d",
    "C89_box_measures_2d",
    "C89_box_measures_3d",
    "C89_safe_vector_2d",
    "C89_safe_vector_3d",
    "C89_safe_distance_2d",
    "C89_safe_distance_3d",
    "C89_range_needed"
   ],
   "note": "Magnitudes without overflow; a safe range"
  },
  {
   "property": "C90",
   "status": "proved",
   "theorems": [
    "C90_vector_nan_2d",
    "C90_vector_nan_3d",
    "C90_distance_nan_2d",
    "C90_distance_nan_3d",
    "C90_cross_nan",
    "C90_transform_nan_2d",
    "C90_transform_nan_3d",
    "C90_matrix_product_nan_2d",
    "C90_matrix_product_nan_3d",
    "C90_matrix_inverse_nan_2d",
    "C90_matrix_inverse_nan_3d",
    "C90_ray_box_nan_axis_2d",
    "C90_ray_box_nan_axis_3d",
    "C90_finite_not_nan_2d",
    "C90_finite_not_nan_3d",
    "C90_finite_operands_nan"
   ],
   "note": "Where NaN goes and where it comes from"
  },
  {
   "property": "C91",
   "status": "proved",
   "theorems": [
    "C91_computed_sine",
    "C91_camera_works",
    "C91_camera_view",
    "C91_round_trip",
    "C91_parallel_up_accepted"
   ],
   "note": "Every sensible camera works"
  },
  {
   "property": "C92",
   "status": "proved",
   "theorems": [
    "C92_clip_2d",
    "C92_clip_3d",
    "C92_disjoint_boxes_2d",
    "C92_disjoint_boxes_3d",
    "C92_disjoint_boxes_exact_2d",
    "C92_disjoint_boxes_exact_3d",
    "C92_disjoint_boxes_can_share_a_parameter"
   ],
   "note": "Clipping a ray by two boxes"
  },
  {
   "property": "C93",
   "status": "proved",
   "theorems": [
    "C93_search_complete_2d",
    "C93_search_complete_3d",
    "C93_nearest_correct_2d",
    "C93_nearest_correct_3d",
    "C93_grazing_hit_lost"
   ],
   "note": "Searching a bounding volume hierarchy loses nothing"
  },
  {
   "property": "C94",
   "status": "proved",
   "theorems": [
    "C94_similarity_3d",
    "C94_similarity_2d",
    "C94_comparisons_unchanged_2d",
    "C94_comparisons_unchanged_3d",
    "C94_angles_unchanged_2d",
    "C94_angles_unchanged_3d",
    "C94_uneven_scaling_is_not_similar"
   ],
   "note": "Chains of moves, turns and uniform scalings keep shapes"
  },
  {
   "property": "C95",
   "status": "proved",
   "theorems": [
    "C95_restart_and_rescale_2d",
    "C95_restart_and_rescale_3d",
    "C95_reverse_2d",
    "C95_reverse_3d"
   ],
   "note": "Restarting, rescaling and reversing a ray"
  },
  {
   "property": "C96",
   "status": "proved",
   "theorems": [
    "C96_cases",
    "C96_beside_the_box_2d",
    "C96_beside_the_box_3d",
    "C96_no_direction_2d",
    "C96_no_direction_3d",
    "C96_half_infinite_never_inside"
   ],
   "note": "Rays that do not move along an axis"
  },
  {
   "property": "C97",
   "status": "proved",
   "theorems": [
    "C97_nearby_difference_2d",
    "C97_nearby_difference_3d",
    "C97_ray_through_2d",
    "C97_ray_through_3d",
    "C97_nearby_distance_2d",
    "C97_nearby_distance_3d",
    "C97_difference_sign_2d",
    "C97_difference_sign_3d",
    "C97_way_back_error_2d",
    "C97_way_back_error_3d"
   ],
   "note": "Differences of nearby points are exact"
  },
  {
   "property": "C98",
   "status": "proved",
   "theorems": [
    "C98_shorter_2d",
    "C98_shorter_3d",
    "C98_shortest_nearly_2d",
    "C98_shortest_nearly_3d",
    "C98_closer_2d",
    "C98_closer_3d",
    "C98_closest_nearly_2d",
    "C98_closest_nearly_3d"
   ],
   "note": "Length and distance comparisons are right unless nearly equal"
  },
  {
   "property": "C99",
   "status": "proved",
   "theorems": [
    "C99_cross_error",
    "C99_perpendicular",
    "C99_computed_dot",
    "C99_self_zero"
   ],
   "note": "A computed cross product is perpendicular up to rounding"
  },
  {
   "property": "C100",
   "status": "proved",
   "theorems": [
    "C100_vectors_2d",
    "C100_vectors_3d",
    "C100_cross",
    "C100_matrix_product_2d",
    "C100_matrix_product_3d",
    "C100_inverse_3x3",
    "C100_inverse_4x4",
    "C100_transforms_2d",
    "C100_transforms_3d",
    "C100_look_at"
   ],
   "note": "The algebra over any scalar type that obeys the laws of arithmetic"
  },
  {
   "property": "C101",
   "status": "proved",
   "theorems": [
    "C101_length_of_scaled_2d",
    "C101_length_of_scaled_3d",
    "C101_normalize_of_scaled_2d",
    "C101_normalize_of_scaled_3d",
    "C101_normalize_twice_2d",
    "C101_normalize_twice_3d",
    "C101_cosine_2d",
    "C101_cosine_3d",
    "C101_not_idempotent"
   ],
   "note": "Directions in floating point"
  },
  {
   "property": "C102",
   "status": "proved",
   "theorems": [
    "C102_split_2d",
    "C102_split_3d",
    "C102_order_2d",
    "C102_order_3d",
    "C102_walk_complete_2d",
    "C102_walk_complete_3d",
    "C102_walk_covers_2d",
    "C102_walk_covers_3d",
    "C102_walk_in_order_2d",
    "C102_walk_in_order_3d",
    "C102_ray_in_the_cut_is_lost",
    "C102_infinite_parameters_out_of_order"
   ],
   "note": "Cutting boxes by planes and walking a kd-tree"
  },
  {
   "property": "C103",
   "status": "proved",
   "theorems": [
    "C103_clamp_inside_2d",
    "C103_clamp_inside_3d",
    "C103_clamp_fixes_2d",
    "C103_clamp_fixes_3d",
    "C103_clamp_is_nearest_2d",
    "C103_clamp_is_nearest_3d",
    "C103_nearest_is_unique_2d",
    "C103_nearest_is_unique_3d",
    "C103_clamp_contracts_2d",
    "C103_clamp_contracts_3d",
    "C103_clamp_to_intersection_2d",
    "C103_clamp_to_intersection_3d"
   ],
   "note": "The nearest point of a box"
  },
  {
   "property": "C104",
   "status": "proved",
   "theorems": [
    "C104_nearest_neighbour_2d",
    "C104_nearest_neighbour_3d"
   ],
   "note": "Nearest-neighbour search loses nothing"
  },
  {
   "property": "C105",
   "status": "proved",
   "theorems": [
    "C105_extreme_corners_2d",
    "C105_extreme_corners_3d"
   ],
   "note": "The extreme corners of a box"
  },
  {
   "property": "C106",
   "status": "proved",
   "theorems": [
    "C106_corner_hull_2d",
    "C106_corner_hull_3d",
    "C106_hull_is_smallest_2d",
    "C106_hull_is_smallest_3d"
   ],
   "note": "The bounding box of the transformed corners"
  },
  {
   "property": "C107",
   "status": "proved",
   "theorems": [
    "C107_cover_2d",
    "C107_cover_3d",
    "C107_share_only_cuts_2d",
    "C107_share_only_cuts_3d",
    "C107_opposite_union_2d",
    "C107_opposite_union_3d",
    "C107_ray_2d",
    "C107_ray_3d",
    "C107_locate_2d",
    "C107_locate_3d",
    "C107_areas_add_2d",
    "C107_volumes_add_3d",
    "C107_halving_2d",
    "C107_halving_3d",
    "C107_axis_ray_through_center_lost"
   ],
   "note": "Quadtrees and octrees"
  },
  {
   "property": "C108",
   "status": "proved",
   "theorems": [
    "C108_ball_contains_box_2d",
    "C108_ball_contains_box_3d",
    "C108_ball_meets_box_2d",
    "C108_ball_meets_box_3d",
    "C108_box_around_ball_exact_2d",
    "C108_box_around_ball_exact_3d",
    "C108_box_around_ball_error_2d",
    "C108_box_around_ball_error_3d",
    "C108_box_around_ball_misses"
   ],
   "note": "Balls and boxes"
  },
  {
   "property": "C109",
   "status": "proved",
   "theorems": [
    "C109_range_search_2d",
    "C109_range_search_3d"
   ],
   "note": "Range search loses nothing"
  },
  {
   "property": "C110",
   "status": "proved",
   "theorems": [
    "C110_snap_contains_2d",
    "C110_snap_contains_3d",
    "C110_snap_is_smallest_2d",
    "C110_snap_is_smallest_3d",
    "C110_rounded_points_2d",
    "C110_rounded_points_3d",
    "C110_snap_algebra_2d",
    "C110_snap_algebra_3d",
    "C110_snap_distance_2d",
    "C110_snap_distance_3d",
    "C110_cell_2d",
    "C110_cell_3d"
   ],
   "note": "Snapping boxes to the integer grid"
  },
  {
   "property": "C111",
   "status": "proved",
   "theorems": [
    "C111_moved_points_2d",
    "C111_moved_points_3d",
    "C111_swept_contains_moved_2d",
    "C111_swept_contains_moved_3d",
    "C111_swept_is_conservative_2d",
    "C111_swept_is_conservative_3d",
    "C111_swept_is_smallest_2d",
    "C111_swept_is_smallest_3d",
    "C111_grown_exact_2d",
    "C111_grown_exact_3d",
    "C111_time_of_impact_exact_2d",
    "C111_time_of_impact_exact_3d",
    "C111_grown_float_disagrees"
   ],
   "note": "Moving boxes"
  },
  {
   "property": "C112",
   "status": "proved",
   "theorems": [
    "C112_culling_2d",
    "C112_culling_3d",
    "C112_exact_2d",
    "C112_exact_3d",
    "C112_visible_2d",
    "C112_visible_3d"
   ],
   "note": "Boxes against half-spaces"
  },
  {
   "property": "C113",
   "status": "proved",
   "theorems": [
    "C113_sweep_2d",
    "C113_sweep_3d",
    "C113_sort_and_sweep_2d",
    "C113_sort_and_sweep_3d"
   ],
   "note": "Sweep and prune"
  },
  {
   "property": "C114",
   "status": "proved",
   "theorems": [
    "C114_cell_of_point_2d",
    "C114_cell_of_point_3d",
    "C114_cells_of_box_2d",
    "C114_cells_of_box_3d",
    "C114_box_query_2d",
    "C114_box_query_3d",
    "C114_neighbours_2d",
    "C114_neighbours_3d",
    "C114_neighbours_exact_2d",
    "C114_neighbours_exact_3d",
    "C114_two_cells_apart"
   ],
   "note": "Points in the cells of a uniform grid"
  },
  {
   "property": "C115",
   "status": "proved",
   "theorems": [
    "C115_contents_2d",
    "C115_contents_3d",
    "C115_search_2d",
    "C115_search_3d",
    "C115_overlaps_and_points_2d",
    "C115_overlaps_and_points_3d"
   ],
   "note": "A tree of boxes under any history of insertions and removals"
  },
  {
   "property": "C116",
   "status": "proved",
   "theorems": [
    "C116_corner_hull_2d",
    "C116_corner_hull_3d",
    "C116_hull_is_smallest_2d",
    "C116_hull_is_smallest_3d",
    "C116_culling_2d",
    "C116_culling_3d",
    "C116_segments_2d",
    "C116_segments_3d",
    "C116_depth_order_2d",
    "C116_depth_order_3d",
    "C116_weights_are_needed_2d",
    "C116_weights_are_needed_3d"
   ],
   "note": "Projective transforms in front of the camera"
  },
  {
   "property": "C117",
   "status": "proved",
   "theorems": [
    "C117_range_search_2d",
    "C117_range_search_3d",
    "C117_nearest_search_2d",
    "C117_nearest_search_3d",
    "C117_exact_2d",
    "C117_exact_3d",
    "C117_slack_is_needed_2d",
    "C117_slack_is_needed_3d"
   ],
   "note": "Searching a tree of balls"
  },
  {
   "property": "C118",
   "status": "proved",
   "theorems": [
    "C118_cast_2d",
    "C118_cast_3d",
    "C118_first_hit_2d",
    "C118_first_hit_3d",
    "C118_pick_2d",
    "C118_pick_3d",
    "C118_flatten_covers_2d",
    "C118_flatten_covers_3d",
    "C118_flatten_cast_2d",
    "C118_flatten_cast_3d"
   ],
   "note": "Scene graphs: casting, picking, flattening"
  },
  {
   "property": "C119",
   "status": "proved",
   "theorems": [
    "C119_ball_contains_box_2d",
    "C119_ball_contains_box_3d",
    "C119_smallest_ball_2d",
    "C119_smallest_ball_3d",
    "C119_apart_2d",
    "C119_apart_3d"
   ],
   "note": "The ball around a box"
  },
  {
   "property": "C120",
   "status": "proved",
   "theorems": [
    "C120_chord_2d",
    "C120_chord_3d",
    "C120_march_2d",
    "C120_march_3d"
   ],
   "note": "The part of a ray inside a box"
  },
  {
   "property": "C121",
   "status": "proved",
   "theorems": [
    "C121_projection_2d",
    "C121_projection_3d",
    "C121_reflection_2d",
    "C121_reflection_3d",
    "C121_nearest_point_2d",
    "C121_nearest_point_3d",
    "C121_distance_to_line_3d"
   ],
   "note": "Projections, reflections and the nearest point of a ray"
  },
  {
   "property": "C122",
   "status": "proved",
   "theorems": [
    "C122_sound",
    "C122_complete",
    "C122_box_first"
   ],
   "note": "Intersecting a ray with a triangle"
  },
  {
   "property": "C123",
   "status": "proved",
   "theorems": [
    "C123_ray_ball_2d",
    "C123_ray_ball_3d"
   ],
   "note": "Intersecting a ray with a ball"
  },
  {
   "property": "C124",
   "status": "proved",
   "theorems": [
    "C124_about_2d",
    "C124_about_3d",
    "C124_built_2d",
    "C124_built_3d",
    "C124_pivot_2d",
    "C124_pivot_3d",
    "C124_group_2d",
    "C124_group_3d",
    "C124_similar_2d",
    "C124_similar_3d",
    "C124_rotation_2d",
    "C124_axis_3d"
   ],
   "note": "Transforming about a pivot point"
  }
 ]
}