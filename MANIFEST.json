{
 "claims": [
  {
   "property": "C01",
   "status": "proved",
   "theorems": [
    "c01_every_index_shows_one_path",
    "c01_set_cell_replaces_one_cell",
    "c01_set_cell_effect",
    "c01_set_cell_back"
   ],
   "note": "Dynamic storage on little-endian or 16-bit targets; the other targets are covered by C36."
  },
  {
   "property": "C02",
   "status": "proved",
   "theorems": [
    "c02_fixed_try_from_order",
    "c02_static_try_from_order",
    "c02_dynamic_try_from_order"
   ],
   "note": ""
  },
  {
   "property": "C03",
   "status": "proved",
   "theorems": [
    "c03_fixed_try_from_err",
    "c03_static_try_from_err",
    "c03_dynamic_try_from_never_fails"
   ],
   "note": ""
  },
  {
   "property": "C04",
   "status": "proved",
   "theorems": [
    "c04_get_panics_iff_out_of_bounds",
    "c04_set_panics_iff_out_of_bounds"
   ],
   "note": ""
  },
  {
   "property": "C05",
   "status": "proved",
   "theorems": [
    "c05_cells_iterator",
    "c05_collected_cells"
   ],
   "note": ""
  },
  {
   "property": "C06",
   "status": "proved",
   "theorems": [
    "c06_fixed_2d_round_trip",
    "c06_fixed_2d_panics_iff"
   ],
   "note": ""
  },
  {
   "property": "C07",
   "status": "partial",
   "theorems": [
    "c07_fixed_3d_round_trip_partial",
    "c07_fixed_3d_panics",
    "c07_fixed_3d_round_trip_refuted",
    "c07_fixed_3d_release16_refuted",
    "c07_fixed_3d_16_bit"
   ],
   "note": "False as stated (refuted: 16-bit targets; panics when MAX > usize bits). Proved for usize >= 32 bits and MAX <= usize bits; the exact result of all other cases (panic, or the zero index on 16-bit targets without overflow checks) is proved too."
  },
  {
   "property": "C08",
   "status": "partial",
   "theorems": [
    "c08_static_2d_error_iff",
    "c08_static_2d_round_trip_partial",
    "c08_static_2d_panics",
    "c08_static_2d_round_trip_refuted",
    "c08_static_2d_release32_refuted",
    "c08_static_2d_wide_release"
   ],
   "note": "Error case exact. Round trip false for MAX = usize bits with depth 0, and for MAX > usize bits (refuted); proved in all other cases; the result of the remaining ones (panic, or the all-zero path without overflow checks) is proved too, so every input is covered."
  },
  {
   "property": "C09",
   "status": "partial",
   "theorems": [
    "c09_static_3d_error",
    "c09_static_3d_loses_low_bits",
    "c09_static_3d_round_trip_partial",
    "c09_static_3d_round_trip_refuted",
    "c09_static_3d_debug32_refuted",
    "c09_static_3d_wide"
   ],
   "note": "False as stated (refuted: low bits are lost). Proved exactly for the depths at which enough chunks are processed; what is lost otherwise, for usize both wider and narrower than the coordinates, is proved exactly, so every input is covered."
  },
  {
   "property": "C10",
   "status": "proved",
   "theorems": [
    "c10_dynamic_2d_round_trip",
    "c10_dynamic_2d_panics_iff",
    "c10_dynamic_3d_round_trip",
    "c10_dynamic_3d_panics_iff"
   ],
   "note": ""
  },
  {
   "property": "C11",
   "status": "proved",
   "theorems": [
    "c11_to_grid_index_2d",
    "c11_to_grid_index_3d",
    "c11_grid_index_2d_injective",
    "c11_grid_index_3d_injective"
   ],
   "note": ""
  },
  {
   "property": "C12",
   "status": "proved",
   "theorems": [
    "c12_fixed_2d",
    "c12_fixed_3d",
    "c12_static_2d",
    "c12_static_3d",
    "c12_dynamic_2d",
    "c12_dynamic_3d"
   ],
   "note": "Static 3D: the exact condition for equality (C09)."
  },
  {
   "property": "C13",
   "status": "proved",
   "theorems": [
    "c13_fast_equals_from_grid_index"
   ],
   "note": ""
  },
  {
   "property": "C14",
   "status": "proved",
   "theorems": [
    "c14_ancestor_truncates",
    "c14_parent"
   ],
   "note": ""
  },
  {
   "property": "C15",
   "status": "proved",
   "theorems": [
    "c15_static_descendant",
    "c15_dynamic_descendant",
    "c15_static_child",
    "c15_dynamic_child"
   ],
   "note": ""
  },
  {
   "property": "C16",
   "status": "proved",
   "theorems": [
    "c16_ancestor_undoes_static_descendant",
    "c16_ancestor_undoes_dynamic_descendant",
    "c16_ancestor_in_steps"
   ],
   "note": ""
  },
  {
   "property": "C17",
   "status": "proved",
   "theorems": [
    "c17_with_depth_truncates",
    "c17_with_depth_same"
   ],
   "note": ""
  },
  {
   "property": "C18",
   "status": "proved",
   "theorems": [
    "c18_cmp_is_preorder",
    "c18_cmp_of_different_paths",
    "c18_cmp_of_made_indices"
   ],
   "note": ""
  },
  {
   "property": "C19",
   "status": "proved",
   "theorems": [
    "c19_cmp_total",
    "c19_cmp_transitive",
    "c19_equal_iff_eq",
    "c19_eq_implies_equal"
   ],
   "note": "For all histories of API calls (made), see C38."
  },
  {
   "property": "C20",
   "status": "proved",
   "theorems": [
    "c20_subtree_is_contiguous"
   ],
   "note": ""
  },
  {
   "property": "C21",
   "status": "proved",
   "theorems": [
    "c21_eq_is_equality_of_paths",
    "c21_equal_values_have_equal_paths"
   ],
   "note": ""
  },
  {
   "property": "C22",
   "status": "partial",
   "theorems": [
    "c22_derived_from_zeroed_refuted",
    "c22_zeroed_2d_equals_zero_path_partial",
    "c22_zeroed_2d_equals_zero_path_refuted",
    "c22_zeroed_3d_equals_zero_path"
   ],
   "note": "False for 2D depths divisible by 4 (refuted); partial theorem is the exact iff. 3D holds for all depths. Indices derived from zeroed of such a depth may be unequal although their cells are equal (c22_derived_from_zeroed_refuted)."
  },
  {
   "property": "C23",
   "status": "proved",
   "theorems": [
    "c23_fixed_to_static",
    "c23_fixed_to_dynamic",
    "c23_static_to_dynamic",
    "c23_dynamic_to_static",
    "c23_static_to_fixed",
    "c23_static_to_fixed_keeps_cells",
    "c23_static_dynamic_static",
    "c23_fixed_static_fixed"
   ],
   "note": ""
  },
  {
   "property": "C24",
   "status": "partial",
   "theorems": [
    "c24_dynamic_to_fixed_memory",
    "c24_dynamic_to_fixed_any",
    "c24_dynamic_to_fixed_any_2d",
    "c24_spare_byte_refuted",
    "c24_stale_bits_refuted",
    "c24_dynamic_to_fixed_partial",
    "c24_dynamic_to_fixed_refuted",
    "c24_dynamic_to_fixed_bytes",
    "c24_dynamic_to_fixed_cells"
   ],
   "note": "False when the dynamic index has fewer bytes than the integer (refuted); on little-endian targets the partial theorem says exactly when it holds; c24_dynamic_to_fixed_bytes gives the bytes of the result on every target; c24_dynamic_to_fixed_cells gives the cells on little-endian targets when the missing bytes are a whole number of cells. c24_dynamic_to_fixed_memory (any target), c24_dynamic_to_fixed_any and c24_dynamic_to_fixed_any_2d cover every history, stale bits and the spare byte of zeroed included (little-endian). Bits that ancestor leaves behind the path of an index with a spare byte come back as cells (c24_stale_bits_refuted)."
  },
  {
   "property": "C25",
   "status": "proved",
   "theorems": [
    "c25_inverted_reverses",
    "c25_inverted_twice"
   ],
   "note": ""
  },
  {
   "property": "C26",
   "status": "proved",
   "theorems": [
    "c26_cell_names_2d",
    "c26_cell_names_3d",
    "c26_cell_names_2d_injective",
    "c26_cell_names_3d_injective"
   ],
   "note": ""
  },
  {
   "property": "C27",
   "status": "proved",
   "theorems": [
    "c27_grid_name_2d",
    "c27_grid_name_3d",
    "c27_grid_name_2d_injective",
    "c27_grid_name_3d_injective",
    "c27_decimal_injective",
    "c27_decimal_is_the_numeral"
   ],
   "note": ""
  },
  {
   "property": "C28",
   "status": "proved",
   "theorems": [
    "c28_quadrant_numbering",
    "c28_quadrant_index",
    "c28_octant_numbering",
    "c28_octant_index",
    "c28_cell_order"
   ],
   "note": ""
  },
  {
   "property": "C29",
   "status": "proved",
   "theorems": [
    "c29_quadrant_ordering_bijective",
    "c29_quadrant_ordering_documented",
    "c29_octant_ordering_bijective",
    "c29_octant_ordering_documented",
    "c29_bit_shifts"
   ],
   "note": ""
  },
  {
   "property": "C30",
   "status": "proved",
   "theorems": [
    "c30_get_bits",
    "c30_get_bits_as_usize",
    "c30_set_bits",
    "c30_set_bits_any_value",
    "c30_set_bits_at_top",
    "c30_set_bits_from_usize",
    "c30_casts",
    "c30_casts_round_trip",
    "c30_size"
   ],
   "note": ""
  },
  {
   "property": "C31",
   "status": "proved",
   "theorems": [
    "c31_vec_set_bits",
    "c31_vec_set_bits_from_usize",
    "c31_vec_set_bits_every_target",
    "c31_vec_get_bits_as_usize",
    "c31_bit_string"
   ],
   "note": ""
  },
  {
   "property": "C32",
   "status": "partial",
   "theorems": [
    "c32_vec_get_bits_returns",
    "c32_vec_get_bits_partial",
    "c32_vec_get_bits_refuted"
   ],
   "note": "False when the last byte only carries (refuted); the partial theorem gives the exact result condition."
  },
  {
   "property": "C33",
   "status": "partial",
   "theorems": [
    "c33_zero_before_u8_partial",
    "c33_zero_behind_u8_partial",
    "c33_zero_before_u16_partial",
    "c33_two_zeroes_u8",
    "c33_two_zeroes_u32",
    "c33_zero_before_u8_high_bits",
    "c33_spreading_ignores_high_bits_refuted",
    "c33_zero_before_u8_every_value",
    "c33_zero_behind_u8_every_value",
    "c33_zero_before_u16_every_value"
   ],
   "note": "u8/u16 helpers do not ignore high bits (refuted); proved for arguments without high bits, and the exact result for all arguments; the 3D helpers hold for all arguments."
  },
  {
   "property": "C34",
   "status": "partial",
   "theorems": [
    "c34_align_zero",
    "c34_align_to_partial",
    "c34_align_to_overflow",
    "c34_align_to_wraps",
    "c34_align_to_refuted",
    "c34_align_to_boundary"
   ],
   "note": "False near the top of the type (refuted); proved when the intermediate sum fits; the result is characterised for all other alignments of the type."
  },
  {
   "property": "C35",
   "status": "proved",
   "theorems": [
    "c35_display",
    "c35_display_cells_2d",
    "c35_display_cells_3d",
    "c35_displayable_eq",
    "c35_displayable_cmp",
    "c35_displayable_cmp_of_made"
   ],
   "note": ""
  },
  {
   "property": "C36",
   "status": "partial",
   "theorems": [
    "c36_try_from_16_bit",
    "c36_try_from_writes_zero",
    "c36_reads_back_partial",
    "c36_reads_back_refuted",
    "c36_set_cell",
    "c36_descendant",
    "c36_inverted",
    "c36_from_static",
    "c36_from_grid_index_3d"
   ],
   "note": "False on 32-bit and 64-bit big-endian targets (refuted); the partial theorem is an exact iff and every writing operation is characterised on every big-endian target."
  },
  {
   "property": "C37",
   "status": "proved",
   "theorems": [
    "c37_from_u8_slice",
    "c37_slice_round_trip",
    "c37_slice_between_types",
    "c37_vec_from_u8_slice",
    "c37_vec_as",
    "c37_vec_from_as",
    "c37_bytes_round_trip",
    "c37_slice_write",
    "c37_vec_slice_write"
   ],
   "note": ""
  },
  {
   "property": "C38",
   "status": "proved",
   "theorems": [
    "c38_histories_behave_like_lists",
    "c38_observations",
    "c38_observations_2d",
    "c38_observations_3d",
    "c38_relations",
    "c38_every_path_can_be_made"
   ],
   "note": "run_spec answers NoClaim for ill-typed calls, for indices beyond usize bit positions and for dynamic->fixed conversions covered by C24."
  },
  {
   "property": "C39",
   "status": "proved",
   "theorems": [
    "c39_histories",
    "c39_observations",
    "c39_names_2d",
    "c39_names_3d",
    "c39_try_from",
    "c39_from_grid_index",
    "c39_any_history"
   ],
   "note": "Checked results equal unchecked results for every call that returns with overflow checks on."
  },
  {
   "property": "C40",
   "status": "proved",
   "theorems": [
    "c40_z_order_2d",
    "c40_z_order_3d",
    "c40_from_grid_2d_monotone",
    "c40_from_grid_3d_monotone"
   ],
   "note": ""
  },
  {
   "property": "C41",
   "status": "proved",
   "theorems": [
    "c41_ancestor_2d",
    "c41_ancestor_3d",
    "c41_static_child_2d",
    "c41_dynamic_child_2d",
    "c41_static_child_3d",
    "c41_dynamic_child_3d"
   ],
   "note": ""
  },
  {
   "property": "C42",
   "status": "partial",
   "theorems": [
    "c42_deep_to_grid_index_2d_panics",
    "c42_deep_to_grid_index_3d_panics",
    "c42_release_2d_folds",
    "c42_release_3d_folds",
    "c42_deep_to_grid_index_refuted"
   ],
   "note": "False for depth > usize bits (refuted); panic with overflow checks and the folded value without them are proved for all deep indices."
  },
  {
   "property": "C43",
   "status": "partial",
   "theorems": [
    "c43_static_raw_equality_partial",
    "c43_fixed_raw_equality_partial",
    "c43_raw_cmp_returns",
    "c43_too_deep_cmp_panics",
    "c43_raw_equality_refuted",
    "c43_too_deep_cmp_release"
   ],
   "note": "False for bits behind the path and for too large depths (refuted); the partial theorems are exact iffs, and the comparison of too deep static 3D indices is characterised with and without overflow checks."
  },
  {
   "property": "C44",
   "status": "proved",
   "theorems": [
    "c44_hash_consistent_with_eq",
    "c44_same_path_same_hash"
   ],
   "note": ""
  },
  {
   "property": "C45",
   "status": "proved",
   "theorems": [
    "c45_static_to_dynamic",
    "c45_dynamic_to_static",
    "c45_fixed_to_static",
    "c45_fixed_to_dynamic",
    "c45_static_to_fixed_monotone"
   ],
   "note": ""
  },
  {
   "property": "C46",
   "status": "partial",
   "theorems": [
    "c46_get_cell_release",
    "c46_set_cell_release",
    "c46_try_from_release_3d",
    "c46_try_from_release_2d",
    "c46_release_loses_cells_refuted",
    "c46_capacity_partial",
    "c46_too_many_bytes_partial",
    "c46_unlimited_depth_refuted"
   ],
   "note": "False beyond usize bit positions (refuted); the partial theorem is the exact capacity with overflow checks. Without them the cells read and written are characterised, try_from of too many octants panics and try_from of too many quadrants loses the first four (on the targets of C01)."
  },
  {
   "property": "C47",
   "status": "proved",
   "theorems": [
    "c47_fixed_default",
    "c47_static_default",
    "c47_dynamic_default",
    "c47_static_zeroed",
    "c47_dynamic_zeroed_2d",
    "c47_dynamic_zeroed_3d"
   ],
   "note": ""
  },
  {
   "property": "C48",
   "status": "proved",
   "theorems": [
    "c48_index_methods",
    "c48_constructors",
    "c48_conversions",
    "c48_grid_and_names",
    "c48_from_grid_index",
    "c48_vec_set_bits",
    "c48_vec_set_bits_from_usize",
    "c48_vec_set_bits_short_value"
   ],
   "note": "c48_vec_set_bits_short_value gives the exact condition under which set_bits with too short a value reads out of bounds or panics."
  },
  {
   "property": "C49",
   "status": "proved",
   "theorems": [
    "c49_fixed_max_depth",
    "c49_static_max_depth",
    "c49_dynamic_max_depth"
   ],
   "note": ""
  },
  {
   "property": "C50",
   "status": "proved",
   "theorems": [
    "c50_partial_cmp_is_cmp",
    "c50_operators",
    "c50_operators_of_valid_indices",
    "c50_max_min",
    "c50_clamp"
   ],
   "note": ""
  },
  {
   "property": "C51",
   "status": "proved",
   "theorems": [
    "c51_fixed_2d",
    "c51_static_2d",
    "c51_dynamic_2d",
    "c51_to_grid_2d",
    "c51_fixed_3d",
    "c51_fast_3d",
    "c51_static_3d",
    "c51_dynamic_3d",
    "c51_to_grid_3d"
   ],
   "note": ""
  },
  {
   "property": "C52",
   "status": "proved",
   "theorems": [
    "c52_sorted_is_traversal",
    "c52_sorting_is_unique",
    "c52_subtrees_are_blocks"
   ],
   "note": ""
  },
  {
   "property": "C53",
   "status": "partial",
   "theorems": [
    "c53_max_levels_partial",
    "c53_max_levels_refuted"
   ],
   "note": "False for dynamic storage, whose constant is 0 (refuted); the partial theorem is the exact iff."
  },
  {
   "property": "C54",
   "status": "partial",
   "theorems": [
    "c54_get_bits_every_range",
    "c54_get_bits_too_long",
    "c54_get_bits_beyond_end_partial",
    "c54_get_bits_beyond_end_refuted",
    "c54_set_bits_every_range",
    "c54_set_bits_too_long",
    "c54_lengths_release",
    "c54_get_bits_release",
    "c54_get_bits_too_long_release",
    "c54_set_bits_too_long_release"
   ],
   "note": "False for starts that do not fit the integer type or 32 bits (refuted); the results of get_bits and set_bits are characterised for every range: with overflow checks a range longer than the integer panics, without them its length is reduced as in c54_lengths_release."
  },
  {
   "property": "C55",
   "status": "partial",
   "theorems": [
    "c55_fixed_dynamic_fixed_partial",
    "c55_fixed_dynamic_fixed_refuted",
    "c55_fixed_dynamic_static",
    "c55_dynamic_static_dynamic",
    "c55_static_fixed_static"
   ],
   "note": "fixed->dynamic->fixed is false on big-endian targets (refuted; the partial theorem gives the bytes on every target); the other round trips are proved."
  },
  {
   "property": "C56",
   "status": "proved",
   "theorems": [
    "c56_error_texts",
    "c56_error_texts_distinguish",
    "c56_fixed_try_from_text",
    "c56_static_try_from_text",
    "c56_cell_text"
   ],
   "note": ""
  },
  {
   "property": "C57",
   "status": "partial",
   "theorems": [
    "c57_get_integer",
    "c57_set_integer",
    "c57_set_vec",
    "c57_get_vec_2d",
    "c57_get_vec_3d_partial",
    "c57_get_vec_3d_straddling",
    "c57_get_vec_3d_refuted",
    "c57_dynamic_vec"
   ],
   "note": "False for 3D reads of FixedDepthStorage and StaticStorage on byte vectors that cross a byte boundary (refuted; the exact result is proved); everything else is proved. DynamicStorage on byte vectors: c57_dynamic_vec."
  },
  {
   "property": "C58",
   "status": "proved",
   "theorems": [
    "c58_fixed_bits",
    "c58_static_bits",
    "c58_dynamic_bits",
    "c58_short_vector",
    "c58_fixed_equality",
    "c58_static_equality",
    "c58_dynamic_equality",
    "c58_static_comparison",
    "c58_dynamic_comparison",
    "c58_fixed_comparison",
    "c58_get_any_vector_release",
    "c58_set_any_vector_release",
    "c58_set_short_vector",
    "c58_short_comparison"
   ],
   "note": ""
  },
  {
   "property": "C59",
   "status": "proved",
   "theorems": [
    "c59_static_bits",
    "c59_dynamic_bytes",
    "c59_bytes_of_zeroed_refuted",
    "c59_bytes_in_stored_order_refuted",
    "c59_order_2d",
    "c59_order_3d",
    "c59_fixed_raw",
    "c59_fast_raw",
    "c59_static_raw"
   ],
   "note": ""
  },
  {
   "property": "C60",
   "status": "proved",
   "theorems": [
    "c60_static_bits",
    "c60_dynamic_bytes",
    "c60_with_depth_finds_ancestors",
    "c60_nesting_2d",
    "c60_nesting_3d",
    "c60_overlap_2d",
    "c60_overlap_3d"
   ],
   "note": ""
  },
  {
   "property": "C61",
   "status": "proved",
   "theorems": [
    "c61_subtree_is_a_range",
    "c61_deeper_is_after"
   ],
   "note": ""
  },
  {
   "property": "C62",
   "status": "proved",
   "theorems": [
    "c62_debug_text",
    "c62_same_text_same_value",
    "c62_text_tells_type",
    "c62_text_tells_cells",
    "c62_enum_names",
    "c62_naming_names"
   ],
   "note": ""
  },
  {
   "property": "C63",
   "status": "proved",
   "theorems": [
    "c63_texts_in_order",
    "c63_buffer",
    "c63_greedy_buffer"
   ],
   "note": ""
  },
  {
   "property": "C64",
   "status": "proved",
   "theorems": [
    "c64_nth",
    "c64_fold",
    "c64_count",
    "c64_last",
    "c64_last_is_deepest"
   ],
   "note": ""
  },
  {
   "property": "C65",
   "status": "proved",
   "theorems": [
    "c65_cells",
    "c65_set_cell",
    "c65_reading_operations_panic",
    "c65_tree_operations",
    "c65_cells_release",
    "c65_set_cell_release",
    "c65_reading_release",
    "c65_inverted_release",
    "c65_tree_release"
   ],
   "note": ""
  },
  {
   "property": "C66",
   "status": "partial",
   "theorems": [
    "c66_every_dimensionality",
    "c66_integer_storages",
    "c66_up_to_eight",
    "c66_beyond_eight",
    "c66_dynamic_storage",
    "c66_storages_hold_lists",
    "c66_every_value_holds_cells",
    "c66_every_dimension_refuted",
    "c66_dynamic_every_target",
    "c66_dynamic_wide_dimension",
    "c66_dynamic_big_endian",
    "c66_dynamic_wide_read"
   ],
   "note": "False above dimensionality 8 for FixedDepthStorage and StaticStorage (refuted; what is written and read is proved for every dimensionality). Proved up to 8, and for DynamicStorage up to the bits of usize on little-endian targets; on big-endian targets it is proved which bits are written (cell 0 for short indices), and for 8 or more bits beyond usize that writing is undefined behaviour and reading panics with overflow checks."
  },
  {
   "property": "C67",
   "status": "proved",
   "theorems": [
    "c67_cells",
    "c67_two_dimensions",
    "c67_three_dimensions",
    "c67_accessors",
    "c67_inverted",
    "c67_tree",
    "c67_unsafe_contract",
    "c67_unsafe_contract_2d",
    "c67_unsafe_contract_3d",
    "c67_laws_are_satisfiable"
   ],
   "note": ""
  },
  {
   "property": "C68",
   "status": "partial",
   "theorems": [
    "c68_every_width",
    "c68_integers",
    "c68_fixed_storage",
    "c68_static_storage",
    "c68_fixed_try_from",
    "c68_static_try_from",
    "c68_static_ancestor",
    "c68_static_descendant",
    "c68_static_walks",
    "c68_static_cmp",
    "c68_fixed_cmp",
    "c68_equal",
    "c68_conversions",
    "c68_zeroed",
    "c68_depth_refuted",
    "c68_hash"
   ],
   "note": "False for static storages over types with 256 or more levels (refuted): the depth is reduced modulo 256, exactly as stated by c68_static_try_from, c68_static_descendant and c68_conversions. Everything else is proved."
  },
  {
   "property": "C69",
   "status": "partial",
   "theorems": [
    "c69_every_width",
    "c69_integers",
    "c69_fixed_grid_2d",
    "c69_static_grid_2d",
    "c69_fixed_grid_3d",
    "c69_static_grid_3d",
    "c69_grid_2d_cells_refuted",
    "c69_grid_2d_range_refuted",
    "c69_fixed_to_dynamic",
    "c69_static_to_dynamic",
    "c69_dynamic_to_static",
    "c69_dynamic_to_fixed",
    "c69_fixed_grid_2d_odd",
    "c69_static_grid_2d_odd",
    "c69_fixed_grid_2d_outside",
    "c69_static_grid_2d_outside"
   ],
   "note": "False in 2D for types whose number of bits is not a multiple of 8 (refuted), and for static indices of types with more levels than usize has bits. The theorems say what happens in all cases: where the cells lead for BITS mod 8 = 1 (_odd), that set_bits is called outside of the value for BITS mod 8 >= 2 (_outside), which coordinate bits remain for many levels; static indices for types of at most 2^32 bits (3D: at least 24 fewer than 2^32 and 2^usize::BITS)."
  },
  {
   "property": "C70",
   "status": "proved",
   "theorems": [
    "c70_pretty_text",
    "c70_same_text_same_value",
    "c70_text_tells_type",
    "c70_text_tells_cells",
    "c70_errors",
    "c70_displayable"
   ],
   "note": ""
  },
  {
   "property": "C71",
   "status": "proved",
   "theorems": [
    "c71_set_cell",
    "c71_with_depth",
    "c71_ancestor_of_equal_depth",
    "c71_descendants_of_one_node",
    "c71_descendants_stay_apart",
    "c71_parents_can_swap"
   ],
   "note": ""
  },
  {
   "property": "C72",
   "status": "proved",
   "theorems": [
    "c72_inverted_2d",
    "c72_inverted_3d",
    "c72_cells_are_bits_2d",
    "c72_set_cell_2d",
    "c72_descendant_2d",
    "c72_cells_are_bits_3d",
    "c72_set_cell_3d",
    "c72_descendant_3d"
   ],
   "note": ""
  },
  {
   "property": "C73",
   "status": "proved",
   "theorems": [
    "c73_equal_values",
    "c73_calls_identify",
    "c73_same_path",
    "c73_streams",
    "c73_slices",
    "c73_cells",
    "c73_cell_values",
    "c73_static_after_fixed",
    "c73_written_values"
   ],
   "note": ""
  },
  {
   "property": "C74",
   "status": "proved",
   "theorems": [
    "c74_last_step",
    "c74_hash_map",
    "c74_ordered_map"
   ],
   "note": ""
  },
  {
   "property": "C75",
   "status": "proved",
   "theorems": [
    "c75_without_flags",
    "c75_numbers",
    "c75_width",
    "c75_flat_text",
    "c75_pretty_text",
    "c75_same_text_same_value",
    "c75_same_text_same_value_refuted",
    "c75_digit_padding",
    "c75_text_tells_type",
    "c75_text_tells_cells",
    "c75_errors",
    "c75_displayable"
   ],
   "note": ""
  },
  {
   "property": "C76",
   "status": "proved",
   "theorems": [
    "c76_assertions",
    "c76_root_assertions",
    "c76_limit_assertions",
    "c76_order_assertion",
    "c76_some_assertion",
    "c76_grid_assertion_2d",
    "c76_grid_assertion_3d",
    "c76_drawn_cells",
    "c76_fixed_2d",
    "c76_fixed_3d",
    "c76_static_2d",
    "c76_static_3d",
    "c76_dynamic_2d",
    "c76_dynamic_3d",
    "c76_conversions_2d",
    "c76_conversions_3d",
    "c76_fixed_grid_2d",
    "c76_fixed_grid_3d",
    "c76_static_grid_2d",
    "c76_static_grid_3d",
    "c76_dynamic_grid_2d",
    "c76_dynamic_grid_3d",
    "c76_all_tests",
    "c76_static_3d_depths",
    "c76_big_endian",
    "c76_static_grid_checked",
    "c76_fixed_grid_3d_16_bit",
    "c76_benchmark",
    "c76_static_grid_unchecked"
   ],
   "note": ""
  },
  {
   "property": "C77",
   "status": "proved",
   "theorems": [
    "c77_fixed_bits",
    "c77_static_bits",
    "c77_dynamic_bytes",
    "c77_fixed_any",
    "c77_static_any",
    "c77_dynamic_any",
    "c77_no_spare_byte_refuted"
   ],
   "note": ""
  },
  {
   "property": "C78",
   "status": "proved",
   "theorems": [
    "c78_neighbours_2d",
    "c78_neighbours_3d",
    "c78_border_2d",
    "c78_border_3d",
    "c78_find_fixed_2d",
    "c78_find_static_2d",
    "c78_find_dynamic_2d",
    "c78_find_fixed_3d",
    "c78_find_dynamic_3d",
    "c78_next_is_greater_2d",
    "c78_next_is_greater_3d",
    "c78_find_static_3d_refuted"
   ],
   "note": "c78_find_static_3d_refuted: the node found for a static 3D index may be the one started from (C09)."
  },
  {
   "property": "C79",
   "status": "proved",
   "theorems": [
    "c79_exists",
    "c79_meet",
    "c79_between",
    "c79_first_difference",
    "c79_grid_2d",
    "c79_grid_3d"
   ],
   "note": ""
  },
  {
   "property": "C80",
   "status": "proved",
   "theorems": [
    "c80_split_and_merge",
    "c80_exactly_one_child",
    "c80_at_most_one_leaf",
    "c80_covers_everything"
   ],
   "note": ""
  }
 ]
}
