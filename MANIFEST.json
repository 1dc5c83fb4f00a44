{
 "claims": [
  {
   "property": "C01",
   "status": "proved",
   "theorems": [
    "C01_names_case_insensitive"
   ],
   "note": "Name rule is idempotent, length preserving, and identifies exactly the spellings equal up to letter case."
  },
  {
   "property": "C02",
   "status": "proved",
   "theorems": [
    "C02_database_is_a_map"
   ],
   "note": "Refinement of the parameter database to a map, by induction over every history of calls."
  },
  {
   "property": "C03",
   "status": "proved",
   "theorems": [
    "C03_add_duplicate_aborts"
   ],
   "note": "add_* on an existing name aborts in every reachable database."
  },
  {
   "property": "C04",
   "status": "proved",
   "theorems": [
    "C04_integer_round_trip",
    "C04_set_get_any_database"
   ],
   "note": "Pseti/Pgeti round trip for every int, through any later calls on other names, and on any database."
  },
  {
   "property": "C05",
   "status": "partial",
   "theorems": [
    "C05_numeric_reads_are_current_partial",
    "C05_stale_after_set_default_refuted"
   ],
   "note": "Numeric reads are current for every history in which no default is set on an existing empty parameter; for that case the code returns a stale number: C05_stale_after_set_default_refuted."
  },
  {
   "property": "C06",
   "status": "proved",
   "theorems": [
    "C06_free_removes_exactly_one"
   ],
   "note": "free_parameter removes one entry, keeps the others with all attributes."
  },
  {
   "property": "C07",
   "status": "proved",
   "theorems": [
    "C07_nth_iterative_value"
   ],
   "note": "n-th value, clamped at the last."
  },
  {
   "property": "C08",
   "status": "partial",
   "theorems": [
    "C08_single_multiplicity_one_refuted"
   ],
   "note": "The property is FALSE of the code: C08_single_multiplicity_one_refuted shows undefined behaviour for every v(x1) value. What does hold (v(x1) inside a list with other values) is part of C09."
  },
  {
   "property": "C09",
   "status": "proved",
   "theorems": [
    "C09_multiplicity_expansion"
   ],
   "note": "Expansion of a rendered item list equals the joined list of values; trailing arrow and (x0) abort."
  },
  {
   "property": "C10",
   "status": "proved",
   "theorems": [
    "C10_expansion_terminates"
   ],
   "note": "The loop makes at most length(s) rounds on every text."
  },
  {
   "property": "C11",
   "status": "proved",
   "theorems": [
    "C11_total_iterations"
   ],
   "note": "Total is the maximum number of values, or the user's total_iterations_ip."
  },
  {
   "property": "C12",
   "status": "proved",
   "theorems": [
    "C12_iteration_counter"
   ],
   "note": "One call and the whole main loop."
  },
  {
   "property": "C13",
   "status": "proved",
   "theorems": [
    "C13_file_parsed_exactly"
   ],
   "note": "For every file up to the size limit whose cleaned text is name=value / blank lines. Files ending in a lossy way are C15; lines with a leading '=' are C17."
  },
  {
   "property": "C14",
   "status": "proved",
   "theorems": [
    "C14_comments_blanks_joins"
   ],
   "note": "Exact characterisation of the buffer for every file, including the lossy endings."
  },
  {
   "property": "C15",
   "status": "partial",
   "theorems": [
    "C15_last_line_without_newline_partial",
    "C15_last_line_lost_refuted"
   ],
   "note": "True for files that end in an ordinary line; refuted otherwise (last character lost, UB for a single comment, refusal of newline+line): C15_last_line_lost_refuted."
  },
  {
   "property": "C16",
   "status": "proved",
   "theorems": [
    "C16_items_split"
   ],
   "note": "For every string without a leading separator; join/split round trip."
  },
  {
   "property": "C17",
   "status": "partial",
   "theorems": [
    "C17_leading_separator_partial",
    "C17_leading_separator_refuted"
   ],
   "note": "True for a leading separator followed by two or more items; refuted for one item and for lines starting with '='."
  },
  {
   "property": "C18",
   "status": "proved",
   "theorems": [
    "C18_parameters_round_trip"
   ],
   "note": "Whole-file round trip of header and parameters, bit for bit, for every storable database."
  },
  {
   "property": "C19",
   "status": "proved",
   "theorems": [
    "C19_fields_round_trip"
   ],
   "note": "Whole-file round trip of the fields; the selection regular expression is characterised as 'is one of the words of the list'."
  },
  {
   "property": "C20",
   "status": "proved",
   "theorems": [
    "C20_crash_atomic"
   ],
   "note": "Every history of attempts with arbitrary crash points and mv failures; checkpoint.dat characterised exactly."
  },
  {
   "property": "C21",
   "status": "partial",
   "theorems": [
    "C21_modify_overrides_partial",
    "C21_new_iterative_refuted"
   ],
   "note": "Override semantics proved end to end (parameter file with modify: names, checkpoint database, reads after restart), array parameters abort; a NEW iterative parameter loses its later values: C21_new_iterative_refuted."
  },
  {
   "property": "C22",
   "status": "partial",
   "theorems": [
    "C22_truncated_rejected_partial",
    "C22_uninitialised_refuted"
   ],
   "note": "Acceptance is exactly 'ends with the mark'; complete files accepted; cuts inside the final section rejected. Other cuts can read uninitialised memory: C22_uninitialised_refuted."
  },
  {
   "property": "C23",
   "status": "partial",
   "theorems": [
    "C23_folders_fresh_partial",
    "C23_open_reopens_refuted",
    "C23_open_last"
   ],
   "note": "Fresh folder with the least free index, pairwise distinct over every history of calls (mkdir succeeding, one shell word). The reopening half is false: C23_open_reopens_refuted."
  },
  {
   "property": "C24",
   "status": "proved",
   "theorems": [
    "C24_pool_is_map"
   ],
   "note": "Refinement of the field array to a map, over every history of add/remove/remove-by-pattern/store."
  },
  {
   "property": "C25",
   "status": "partial",
   "theorems": [
    "C25_coefficients_current_partial",
    "C25_poke_stale_refuted"
   ],
   "note": "Proved for every history of writes through the macros and 1-d/2-d/3-d requests, with totality. Missing: stores that bypass the macros; the checkpoint reader does one, and then the answer is stale: C25_poke_stale_refuted."
  },
  {
   "property": "C26",
   "status": "proved",
   "theorems": [
    "C26_remove_by_pattern"
   ],
   "note": "For every reachable pool and every predicate in place of the regular expression."
  },
  {
   "property": "C27",
   "status": "proved",
   "theorems": [
    "C27_ijk_bijection"
   ],
   "note": "32-bit unsigned arithmetic, for every shape whose number of points fits."
  },
  {
   "property": "C28",
   "status": "proved",
   "theorems": [
    "C28_symmetric_pairs"
   ],
   "note": "32-bit unsigned and int arguments."
  },
  {
   "property": "C29",
   "status": "proved",
   "theorems": [
    "C29_round_trip",
    "C29_copy",
    "C29_expand"
   ],
   "note": "any element type (also IEEE doubles), regular / row major / long formats; int format needs at most INT_MAX kept entries"
  },
  {
   "property": "C30",
   "status": "partial",
   "theorems": [
    "C30_valid",
    "C30_too_many_entries_refuted",
    "C30_too_many_exist"
   ],
   "note": "valid up to INT_MAX kept entries; beyond it an invalid matrix is returned silently (refuted)"
  },
  {
   "property": "C31",
   "status": "partial",
   "theorems": [
    "C31_entrywise_partial",
    "C31_refuses",
    "C31_corner_refuted"
   ],
   "note": "entrywise when the lookup stays in bounds; with the plain lookup and a missing lower-right entry the code reads past the array (refuted)"
  },
  {
   "property": "C32",
   "status": "proved",
   "theorems": [
    "C32_matrix_by_vector",
    "C32_product",
    "C32_product_transposed",
    "C32_product_transposed_into"
   ],
   "note": "all format pairs the code accepts; null arguments not modelled"
  },
  {
   "property": "C33",
   "status": "proved",
   "theorems": [
    "C33_regular_copy_refuted"
   ],
   "note": "the property is refuted: for every matrix the copy is the zero matrix"
  },
  {
   "property": "C34",
   "status": "proved",
   "theorems": [
    "C34_stack"
   ],
   "note": "freeing the members (flag YES) not modelled"
  },
  {
   "property": "C35",
   "status": "partial",
   "theorems": [
    "C35_lookup_partial",
    "C35_lookup_coarse",
    "C35_past_the_end_refuted",
    "C35_not_coarse_grained_refuted"
   ],
   "note": "exact characterisation; plain lookup reads past the end for some entries of valid matrices (refuted)"
  },
  {
   "property": "C36",
   "status": "partial",
   "theorems": [
    "C36_inverse_partial",
    "C36_zero_first_entry_refuted"
   ],
   "note": "proved for a00 != 0 and for all positive definite symmetric matrices; false for every matrix with a00 = 0 (C36_zero_first_entry_refuted). Exact real arithmetic."
  },
  {
   "property": "C37",
   "status": "proved",
   "theorems": [
    "C37_precondition",
    "C37_not_gauss_seidel_refuted"
   ],
   "note": "exact real arithmetic, UMFPACK replaced by its contract (solver_ok)"
  },
  {
   "property": "C38",
   "status": "partial",
   "theorems": [
    "C38_cosine_sum_partial",
    "C38_other_multiples_refuted"
   ],
   "note": "exact outside the two round-off windows; at multiples of 2 pi other than 0 and 2 pi the code divides by zero (refuted)"
  },
  {
   "property": "C39",
   "status": "proved",
   "theorems": [
    "C39_bisection",
    "C39_max_iter_best_point_refuted"
   ],
   "note": "Refusal, honest success for continuous functions, convergence bound, other outcomes. The refuted theorem: on MAX_ITER the solution stays 0 (outside the bracket)."
  },
  {
   "property": "C40",
   "status": "proved",
   "theorems": [
    "C40_dispatch"
   ],
   "note": "Function registry, named functions, project registry and the project main runs. What a registered function does is abstract."
  },
  {
   "property": "C41",
   "status": "proved",
   "theorems": [
    "C41_attributes"
   ],
   "note": "All strings."
  },
  {
   "property": "C42",
   "status": "proved",
   "theorems": [
    "C42_aux_fields"
   ],
   "note": "All grids and lists of names; the leading-comma abort is also proved."
  },
  {
   "property": "C43",
   "status": "partial",
   "theorems": [
    "C43_names_from_path_partial",
    "C43_dot_in_directory_refuted"
   ],
   "note": "Proved for every path with a dot after its last slash (below 400 characters); refuted for a dot in the directory only."
  },
  {
   "property": "C44",
   "status": "proved",
   "theorems": [
    "C44_line_transform"
   ],
   "note": "Any 1-d transform on any element type."
  },
  {
   "property": "C45",
   "status": "proved",
   "theorems": [
    "C45_edges"
   ],
   "note": "32-bit unsigned arithmetic."
  },
  {
   "property": "C46",
   "status": "partial",
   "theorems": [
    "C46_row_major_partial",
    "C46_row_major_refuted"
   ],
   "note": "proved below 2^32 entries, undefined behaviour above (refuted)"
  },
  {
   "property": "C47",
   "status": "proved",
   "theorems": [
    "C47_text_search"
   ],
   "note": ""
  },
  {
   "property": "C48",
   "status": "proved",
   "theorems": [
    "C48_check_format",
    "C48_repeated_delimiter_refuted"
   ],
   "note": "C48_repeated_delimiter_refuted: consequence of the exact description"
  },
  {
   "property": "C49",
   "status": "partial",
   "theorems": [
    "C49_replace_all_partial",
    "C49_anchored_refuted"
   ],
   "note": "patterns without special characters are covered exactly; the anchored case is refuted (C49_anchored_refuted); other regular expressions are not modelled"
  },
  {
   "property": "C50",
   "status": "proved",
   "theorems": [
    "C50_list_parameters"
   ],
   "note": ""
  },
  {
   "property": "C51",
   "status": "proved",
   "theorems": [
    "C51_new_folder_iff_resolution_changed"
   ],
   "note": "the folder-making function is arbitrary but must return paths that are plain parameter values"
  },
  {
   "property": "C52",
   "status": "partial",
   "theorems": [
    "C52_boost_partial",
    "C52_superluminal",
    "C52_slow_refuted"
   ],
   "note": "proved for B=0 or |B|^2>=1e-12; refuted for smaller velocities (C52_slow_refuted)"
  },
  {
   "property": "C53",
   "status": "partial",
   "theorems": [
    "C53_rotation_partial",
    "C53_two_angles_refuted"
   ],
   "note": "undoing holds for one angle at a time; refuted for two angles"
  },
  {
   "property": "C54",
   "status": "partial",
   "theorems": [
    "C54_sphe_cart_partial",
    "C54_yz_plane_refuted"
   ],
   "note": "inverse proved where also cos(phi) != 0; refuted on the yz plane (non-finite result)"
  },
  {
   "property": "C55",
   "status": "proved",
   "theorems": [
    "C55_interpolation",
    "C55_at_grid_points"
   ],
   "note": "one line of a patch, exact real arithmetic"
  },
  {
   "property": "C56",
   "status": "proved",
   "theorems": [
    "C56_first_derivative"
   ],
   "note": "one line of a patch, exact real arithmetic; at most 500000 points so that no inner point falls into a round-off window"
  },
  {
   "property": "C57",
   "status": "partial",
   "theorems": [
    "C57_second_derivative_partial",
    "C57_overflow_refuted"
   ],
   "note": "extrema grid up to 216 points; refuted above"
  },
  {
   "property": "C58",
   "status": "partial",
   "theorems": [
    "C58_functional_derivative_partial",
    "C58_overflow_refuted"
   ],
   "note": "up to 500000 / 1025 points and outside the round-off windows; refuted above 1025"
  },
  {
   "property": "C59",
   "status": "proved",
   "theorems": [
    "C59_jacobian_is_derivative"
   ],
   "note": "one direction; coordinate factor not included"
  },
  {
   "property": "C60",
   "status": "proved",
   "theorems": [
    "C60_steepest_descent",
    "C60_ok_is_root_refuted",
    "C60_never_worse_refuted",
    "C60_zero_tolerance_refuted"
   ],
   "note": "Equations finite and never interrupting. Three refuted readings: OK is a root, never worse, zero tolerance ends."
  },
  {
   "property": "C61",
   "status": "proved",
   "theorems": [
    "C61_patch_interpolation"
   ],
   "note": "Chebyshev extrema, T_n basis, exact reals. The cache of coefficients is C25/C41/C42."
  },
  {
   "property": "C62",
   "status": "proved",
   "theorems": [
    "C62_volume_integral",
    "C62_integral_unique"
   ],
   "note": "Cartesian patches. Other coordinate systems: not covered (plan_integration leaves the function pointer null for coordinate systems other than Cartesian and CubedSpherical)."
  },
  {
   "property": "C63",
   "status": "proved",
   "theorems": [
    "C63_interval_integral"
   ],
   "note": "Cartesian patches."
  },
  {
   "property": "C64",
   "status": "proved",
   "theorems": [
    "C64_surface_integral"
   ],
   "note": "Cartesian patches; the det_h files (Chebyshev extrema variant)."
  },
  {
   "property": "C65",
   "status": "proved",
   "theorems": [
    "C65_inverse_jacobian"
   ],
   "note": "For any Jacobian supplied by the patch; Chebyshev basis."
  },
  {
   "property": "C66",
   "status": "proved",
   "theorems": [
    "C66_simpson"
   ],
   "note": "Exactness, refusal of even sizes, the single point."
  },
  {
   "property": "C67",
   "status": "partial",
   "theorems": [
    "C67_gauss_chebyshev_partial",
    "C67_defined_for_all_sizes_refuted",
    "C67_factorial"
   ],
   "note": "Exact for every n on the sum; the call itself is undefined behaviour from 7 points on because the error estimate overflows an int factorial (refuted theorem). Missing: exactness of the Lobatto and Legendre rules (table weights)."
  },
  {
   "property": "C68",
   "status": "proved",
   "theorems": [
    "C68_spectral_filter"
   ],
   "note": "erfc is a parameter with values in [0,2]; up to 500000 points per direction."
  },
  {
   "property": "C69",
   "status": "proved",
   "theorems": [
    "C69_polytrope",
    "C69_density_never_negative_refuted"
   ],
   "note": "exact reals. Companion refutation: below h = 1 densities may be negative."
  },
  {
   "property": "C70",
   "status": "proved",
   "theorems": [
    "C70_polytrope_derivatives",
    "C70_finite_at_surface_refuted"
   ],
   "note": "exact reals. Companion refutation: at h = 1 with Gamma > 2 no finite derivative."
  },
  {
   "property": "C71",
   "status": "proved",
   "theorems": [
    "C71_pwp_construction"
   ],
   "note": "exact reals."
  },
  {
   "property": "C72",
   "status": "proved",
   "theorems": [
    "C72_pwp_evaluation",
    "C72_every_enthalpy_refuted"
   ],
   "note": "exact reals. Companion refutation: exactly 1e-12 below an inner threshold the program stops."
  },
  {
   "property": "C73",
   "status": "partial",
   "theorems": [
    "C73_pwp_refusals",
    "C73_last_threshold_refuted",
    "C73_one_piece_refuted",
    "C73_missing_threshold_refuted"
   ],
   "note": "refused when the misorder is before the last threshold or an exponent is 1; refuted for the last threshold (accepted), for a single piece and for too few thresholds (out-of-bounds reads)."
  },
  {
   "property": "C74",
   "status": "proved",
   "theorems": [
    "C74_tabular",
    "C74_short_table_refuted"
   ],
   "note": "the interpolant is any function through its points; companion refutation for tables of fewer than four rows (out-of-bounds read)."
  },
  {
   "property": "C75",
   "status": "partial",
   "theorems": [
    "C75_tabular_derivatives_partial",
    "C75_shift_ignored_refuted"
   ],
   "note": "proved for shift 0; refuted in general: the shift added under the logarithm is missing in the chain rule."
  },
  {
   "property": "C76",
   "status": "partial",
   "theorems": [
    "C76_neville_partial",
    "C76_subsampling_refuted"
   ],
   "note": "exact reals. Without subsampling proved for all N. With subsampling proved unless the stride N/max >= 2 divides max-1; refuted there (division by zero), and the last point used is max-1, not N-1."
  },
  {
   "property": "C77",
   "status": "proved",
   "theorems": [
    "C77_spline_plan",
    "C77_spline",
    "C77_edge_refuted"
   ],
   "note": "exact reals. Companion refutation: exactly 1e-12 right of any given point, DBL_MAX is returned."
  },
  {
   "property": "C78",
   "status": "proved",
   "theorems": [
    "C78_hermite",
    "C78_hermite_plan",
    "C78_end_and_derivative_refuted"
   ],
   "note": "exact reals. Companion refutation: the last data point is refused; the advertised derivative of the interpolant is a spline through the slopes."
  },
  {
   "property": "C79",
   "status": "proved",
   "theorems": [
    "C79_finite_difference",
    "C79_checks_refuted"
   ],
   "note": "exact reals; acc >= 1. Companion refutation: acc+M points are refused though sufficient, points outside the grid accepted, acc = 0 reads unset weights."
  },
  {
   "property": "C80",
   "status": "partial",
   "theorems": [
    "C80_spline_eos_partial",
    "C80_beyond_samples_refuted"
   ],
   "note": "exact reals; refuted beyond the last sample (h > 2), where 0 is returned."
  },
  {
   "property": "C81",
   "status": "partial",
   "theorems": [
    "C81_to_cartesian_partial",
    "C81_to_patch_partial",
    "C81_accepted",
    "C81_cartesian",
    "C81_round_trip_refuted",
    "C81_hole_refuted"
   ],
   "note": "proved for coordinates in the box, at an end or at least 1e-12 from it, and not exactly at the tolerance from an end; the round trip and the inside test are refuted outside that (C81_round_trip_refuted, C81_hole_refuted)"
  },
  {
   "property": "C82",
   "status": "partial",
   "theorems": [
    "C82_six_sides",
    "C82_search",
    "C82_located_partial",
    "C82_third_coordinate",
    "C82_box_refuted"
   ],
   "note": "cover, uniqueness, search order proved for all; locating is proved for points that C81 covers; x_of_X ignores the box in X0, X1 (refuted)"
  },
  {
   "property": "C83",
   "status": "partial",
   "theorems": [
    "C83_jacobian_partial",
    "C83_determinant_partial",
    "C83_coordinates",
    "C83_varying_radius_refuted"
   ],
   "note": "all types and sides; for OT_T_SCS only constant radii (or flat inner face), otherwise refuted (C83_varying_radius_refuted)"
  },
  {
   "property": "C84",
   "status": "partial",
   "theorems": [
    "C84_arctan_partial",
    "C84_angles_partial",
    "C84_search_sound",
    "C84_search_partial",
    "C84_snap_refuted"
   ],
   "note": "directions closer than 1e-12 to an axis, the equator and the poles are excluded; some of them are refuted (C84_snap_refuted)"
  },
  {
   "property": "C85",
   "status": "partial",
   "theorems": [
    "C85_node_partial",
    "C85_node_near",
    "C85_node_exact",
    "C85_node_refuted",
    "C85_force",
    "C85_force_in_box"
   ],
   "note": "forced location proved; find_node proved for |x| > 1.0001 and well separated nodes, refuted for |x| <= 1.0001"
  },
  {
   "property": "C86",
   "status": "proved",
   "theorems": [
    "C86_schur_solves",
    "C86_schur_drops",
    "C86_drop_bound",
    "C86_single"
   ],
   "note": "exact arithmetic (any commutative ring); UMFPACK is a parameter with the contract exact_solver; the bound on dropped entries is over the reals"
  },
  {
   "property": "C87",
   "status": "proved",
   "theorems": [
    "C87_numbering",
    "C87_numbered",
    "C87_closed"
   ],
   "note": "all sizes below 2^32 nodes"
  },
  {
   "property": "C88",
   "status": "proved",
   "theorems": [
    "C88_jumps",
    "C88_jacobian"
   ],
   "note": "Partial_Derivative, the interpolation and their Jacobians are parameters assumed to match (jacobians_match); the sewing is a function of the subfaces"
  },
  {
   "property": "C89",
   "status": "proved",
   "theorems": [
    "C89_update",
    "C89_update_single"
   ],
   "note": ""
  },
  {
   "property": "C90",
   "status": "proved",
   "theorems": [
    "C90_newton_step",
    "C90_newton_steps",
    "C90_single"
   ],
   "note": "exact arithmetic; equations and their matrices are parameters; FieldUpdate is part of the equations"
  },
  {
   "property": "C91",
   "status": "partial",
   "theorems": [
    "C91_loop",
    "C91_continue",
    "C91_nan_refuted",
    "C91_residual",
    "C91_history"
   ],
   "note": "a residual that is not finite is not noticed if an earlier patch has a large one (C91_nan_refuted)"
  },
  {
   "property": "C92",
   "status": "partial",
   "theorems": [
    "C92_checks",
    "C92_no_interface_refuted",
    "C92_collocated_refuted",
    "C92_self_refuted",
    "C92_regular_refuted"
   ],
   "note": "what the check accepts is characterised; patches without interface points, collocated nodes that are not interface nodes of the neighbour, self-adjacent patches and the regular assembly are refuted; the grids of C88 and C90 are the positive part"
  },
  {
   "property": "C93",
   "status": "proved",
   "theorems": [
    "C93_christoffel"
   ],
   "note": "model generated by tools/c2coq.py from the C loop body; exact reals"
  },
  {
   "property": "C94",
   "status": "proved",
   "theorems": [
    "C94_ricci"
   ],
   "note": "model generated by tools/c2coq.py; the symmetric storage equals the full tensor only where the contracted derivatives of the connection commute, proved for exact metric derivatives; spectral derivatives satisfy it up to their error"
  },
  {
   "property": "C95",
   "status": "partial",
   "theorems": [
    "C95_bssn_partial",
    "C95_given_metric_refuted"
   ],
   "note": "positive definite metrics proved; the test for a missing metric is inverted (C95_given_metric_refuted); pow is Rpower, pointwise"
  },
  {
   "property": "C96",
   "status": "proved",
   "theorems": [
    "C96_psi_equation"
   ],
   "note": "models generated by tools/c2coq.py; spectral derivatives are arbitrary matrices D1, D2; exact reals"
  },
  {
   "property": "C97",
   "status": "proved",
   "theorems": [
    "C97_lapse_equation"
   ],
   "note": "as C96"
  },
  {
   "property": "C98",
   "status": "partial",
   "theorems": [
    "C98_shift_equation_partial"
   ],
   "note": "statement on jets (value, first and second derivatives of the shift): the residual takes the spectral derivative of (L beta)^ij, the Jacobian the second derivatives of beta, equal on nodal values only up to truncation"
  },
  {
   "property": "C99",
   "status": "proved",
   "theorems": [
    "C99_boundary_conditions",
    "C99_boundary_jacobians"
   ],
   "note": "unit conformal normal assumed for the horizon statement; its derivative is a field the code reads"
  },
  {
   "property": "C100",
   "status": "proved",
   "theorems": [
    "C100_adm_constraints",
    "C100_extrinsic_curvature"
   ],
   "note": "derivatives of the physical fields are given by the product rule (exact differentiation); the identities version ignores the source rescaling, so it agrees for EConfC = JConfC = 1"
  },
  {
   "property": "C101",
   "status": "proved",
   "theorems": [
    "C101_phi_equation"
   ],
   "note": "models generated by tools/c2coq.py; exact reals; spectral derivatives are arbitrary matrices; that the interpolation is linear with the weights the Jacobian uses is part of the statement's data"
  },
  {
   "property": "C102",
   "status": "partial",
   "theorems": [
    "C102_phi_surface_partial",
    "C102_phi_surface_refuted"
   ],
   "note": "first form proved in full; third form: matrix is the derivative of the residual only where the conformal metric is flat, refuted elsewhere; inner boundary rows are zero (refuted theorem)"
  },
  {
   "property": "C103",
   "status": "proved",
   "theorems": [
    "C103_matter_sources"
   ],
   "note": "models generated by tools/c2coq.py; exact reals; node by node"
  },
  {
   "property": "C104",
   "status": "partial",
   "theorems": [
    "C104_euler_integral_partial",
    "C104_euler_integral_refuted"
   ],
   "note": "C <= beta.dphi proved; for larger C the stored enthalpy has a different Euler constant (refuted theorem)"
  },
  {
   "property": "C105",
   "status": "partial",
   "theorems": [
    "C105_force_balance_partial",
    "C105_force_balance_refuted"
   ],
   "note": "proved when no infall velocity acts along z; otherwise Gtilda uses a velocity field without the z component (refuted theorem); interpolation and differentiation at the centre taken as exact"
  },
  {
   "property": "C106",
   "status": "proved",
   "theorems": [
    "C106_spin_and_inspiral"
   ],
   "note": "exact reals"
  },
  {
   "property": "C107",
   "status": "partial",
   "theorems": [
    "C107_fourier_1d_partial",
    "C107_even_refuted",
    "C107_wrap_refuted"
   ],
   "note": "proved for odd n and n <= 92682; for even n the highest mode is returned doubled, above 92682 points the Uint product m*i wraps (two refuted theorems)"
  },
  {
   "property": "C108",
   "status": "partial",
   "theorems": [
    "C108_fourier_2d_partial",
    "C108_even_refuted"
   ],
   "note": "exactness below the Nyquist degree and node reproduction for odd counts proved; for even counts the highest mode is doubled (refuted theorem)"
  },
  {
   "property": "C109",
   "status": "partial",
   "theorems": [
    "C109_fourier_sphere_partial",
    "C109_nyquist_refuted"
   ],
   "note": "exact below the Nyquist degree; the theta count is always doubled to an even number, so the highest mode is doubled (refuted theorem)"
  },
  {
   "property": "C110",
   "status": "proved",
   "theorems": [
    "C110_index_nonnegative_m",
    "C110_index_all_m"
   ],
   "note": "ints and Uints without overflow"
  },
  {
   "property": "C111",
   "status": "partial",
   "theorems": [
    "C111_specification_exists",
    "C111_legendre_functions",
    "C111_theta_derivative_partial",
    "C111_theta_derivative_refuted",
    "C111_harmonics",
    "C111_harmonic_derivatives_partial"
   ],
   "note": "functions and harmonics proved for every degree; theta derivative proved up to degree 46340, from which on (l+m)(l-m+1) overflows an int (refuted theorem)"
  },
  {
   "property": "C112",
   "status": "partial",
   "theorems": [
    "C112_gauss_legendre_partial",
    "C112_roots",
    "C112_interpolation",
    "C112_derivative_tables_partial",
    "C112_coefficients_partial",
    "C112_sums_partial",
    "C112_defined_for_all_sizes_refuted"
   ],
   "note": "the whole call is proved for Ntheta <= 6; the sums are the right ones for every Ntheta, but from seven points on (the recommended Ntheta for Lmax >= 3) the quadrature computes (2n)! in an int and overflows (refuted theorem); the root table is assumed to hold exact zeros"
  },
  {
   "property": "C113",
   "status": "proved",
   "theorems": [
    "C113_equations",
    "C113_isotropic",
    "C113_Komar_is_ADM",
    "C113_integrands",
    "C113_mass_integral"
   ],
   "note": "for exact solutions of the program's equations; real arithmetic"
  },
  {
   "property": "C114",
   "status": "partial",
   "theorems": [
    "C114_profile",
    "C114_points",
    "C114_step_cubic",
    "C114_step_linear",
    "C114_surface",
    "C114_conformal_factor",
    "C114_isotropic_steps",
    "C114_centre_mass",
    "C114_centre_refuted",
    "C114_c_integrand_refuted"
   ],
   "note": "profile, step, parity and surface proved; the claim about the start at the centre is refuted: the expansion lacks a factor 1/hc in r^2 (ratio of squares tends to hc), and the integrand of the isotropic constant is set to 0 at the centre instead of its limit; a general order-4 error bound for the Runge-Kutta step is not proved (exactness for cubic slopes and linear systems is)"
  },
  {
   "property": "C115",
   "status": "partial",
   "theorems": [
    "C115_report",
    "C115_no_star",
    "C115_converges",
    "C115_converges_status",
    "C115_above_maximum_mass_refuted"
   ],
   "note": "proved up to twice the tolerance, and with status 0 when no tried mass is at exactly the tolerance; a request above the maximum mass returns a star of another mass with status 1 (refuted theorem); infinite masses are not modelled"
  },
  {
   "property": "C116",
   "status": "partial",
   "theorems": [
    "C116_field_index",
    "C116_dispatch",
    "C116_documented_MT_safe_for_NSNS_refuted",
    "C116_parameter_query",
    "C116_array_parameter_refuted",
    "C116_set_param",
    "C116_nameless_param_refuted"
   ],
   "note": "lookup, dispatch, query and set_param proved; the documented thread safe reader for NS-NS systems does not exist, a parameter that has only an array crashes get_param_dbl, and a parameter without a name is accepted (refuted theorems). get_param_dbl reads the text of the parameter, not its double."
  },
  {
   "property": "C117",
   "status": "partial",
   "theorems": [
    "C117_arrays",
    "C117_succeeds",
    "C117_stops",
    "C117_short_names",
    "C117_thread_safe",
    "C117_thread_safe_not_finite_refuted"
   ],
   "note": "proved with the search for patches, the interpolation and the addition of doubles as parameters; with fewer evolution names than fields the program gives a null pointer to strcmp (proved as UB) and the thread safe call may return a value that is not finite (refuted)"
  },
  {
   "property": "C118",
   "status": "partial",
   "theorems": [
    "C118_fields_file",
    "C118_nameless_block_refuted",
    "C118_coordinates",
    "C118_long_first_line"
   ],
   "note": "both round trips proved; a missing evolution name writes a nameless block, and a first line of 998 characters makes a well-formed file of coordinates unreadable (proved)"
  },
  {
   "property": "C119",
   "status": "partial",
   "theorems": [
    "C119_metric",
    "C119_setup",
    "C119_literal",
    "C119_small_boost_kept_refuted"
   ],
   "note": "proved for every usable hole; a velocity with |v|^2 below 1e-12 is silently replaced by rest (refuted), and the direction of spin components under 1e-12 is not claimed"
  },
  {
   "property": "C120",
   "status": "partial",
   "theorems": [
    "C120_moving",
    "C120_resting_partial"
   ],
   "note": "exact for moving holes; for a hole at rest the code uses 1/sqrt(1-1e-14) for 1, and the deviation of lapse and shift is proved exactly (suffix _partial)"
  },
  {
   "property": "C121",
   "status": "proved",
   "theorems": [
    "C121_derivatives"
   ],
   "note": "first and second derivatives of all components; the code's constant 1/sqrt(2) is a parameter"
  },
  {
   "property": "C122",
   "status": "partial",
   "theorems": [
    "C122_third_partial",
    "C122_third_mixed_refuted"
   ],
   "note": "true when two of the three directions agree; the mixed derivative xyz is wrong (120 lost in three terms): refuted for every spinning hole along z in a whole octant"
  },
  {
   "property": "C123",
   "status": "partial",
   "theorems": [
    "C123_surface_equation",
    "C123_surface_is_horizon_refuted"
   ],
   "note": "the surface equation is right for every target radius; the target radius M+sqrt(M^2+a^2) is the horizon only for a = 0 (refuted)"
  },
  {
   "property": "C124",
   "status": "partial",
   "theorems": [
    "C124_start_general",
    "C124_spin_above_one",
    "C124_start_close_refuted"
   ],
   "note": "general start-off proved; the close start-off stores the irreducible mass as the Christodoulou mass (refuted)"
  },
  {
   "property": "C125",
   "status": "proved",
   "theorems": [
    "C125_Kij"
   ],
   "note": "the formula; for a boosted hole the time derivative of the metric is neglected by the code (noted in DESIGN)"
  },
  {
   "property": "C126",
   "status": "proved",
   "theorems": [
    "C126_roll_off",
    "C126_blend"
   ],
   "note": ""
  },
  {
   "property": "C127",
   "status": "proved",
   "theorems": [
    "C127_conformal"
   ],
   "note": "at the one call pattern of the project; the null stem default is C95"
  },
  {
   "property": "C128",
   "status": "partial",
   "theorems": [
    "C128_isotropic",
    "C128_isotropic_horizon",
    "C128_PG_shift_partial",
    "C128_PG_horizon",
    "C128_PG_curvature"
   ],
   "note": "the Painleve-Gullstrand shift is not claimed at nodes with an x or y component in (0,1e-12) of the centre (arctan snaps); everything else proved"
  },
  {
   "property": "C129",
   "status": "proved",
   "theorems": [
    "C129_surface_momenta"
   ],
   "note": ""
  },
  {
   "property": "C130",
   "status": "proved",
   "theorems": [
    "C130_gauss"
   ],
   "note": "node-wise: the divergence theorem for the integrals themselves is not part of the model"
  },
  {
   "property": "C131",
   "status": "proved",
   "theorems": [
    "C131_adm_mass"
   ],
   "note": ""
  },
  {
   "property": "C132",
   "status": "proved",
   "theorems": [
    "C132_komar"
   ],
   "note": ""
  },
  {
   "property": "C133",
   "status": "proved",
   "theorems": [
    "C133_spin_centre"
   ],
   "note": ""
  },
  {
   "property": "C134",
   "status": "partial",
   "theorems": [
    "C134_ossokine",
    "C134_ossokine_refuted"
   ],
   "note": "the flat identity is proved; that the two parts fit together in the metric they are integrated with is refuted (C134_ossokine_refuted)"
  },
  {
   "property": "C135",
   "status": "partial",
   "theorems": [
    "C135_normals",
    "C135_normals_refuted"
   ],
   "note": "unit length proved for all metrics, orthogonality for flat conformal metrics; refuted in general (C135_normals_refuted)"
  },
  {
   "property": "C136",
   "status": "proved",
   "theorems": [
    "C136_select",
    "C136_misspelt",
    "C136_all",
    "C136_layers"
   ],
   "note": ""
  },
  {
   "property": "C137",
   "status": "proved",
   "theorems": [
    "C137_tables"
   ],
   "note": "the calc_* functions of irreducible mass, baryonic mass, CM and spin are only reached, not modelled item by item"
  },
  {
   "property": "C138",
   "status": "proved",
   "theorems": [
    "C138_inventory",
    "C138_names",
    "C138_inner",
    "C138_tagged",
    "C138_kinds"
   ],
   "note": ""
  },
  {
   "property": "C139",
   "status": "partial",
   "theorems": [
    "C139_coverage",
    "C139_coverage_refuted",
    "C139_bhbh_refuted"
   ],
   "note": "proved for 18 combinations; refuted for the constraint momentum of NS-NS and NS grids (C139_coverage_refuted) and for the volume methods of the BH-BH momentum, which always stop (C139_bhbh_refuted)"
  },
  {
   "property": "C140",
   "status": "proved",
   "theorems": [
    "C140_report"
   ],
   "note": ""
  },
  {
   "property": "C141",
   "status": "proved",
   "theorems": [
    "C141_spin"
   ],
   "note": ""
  },
  {
   "property": "C142",
   "status": "proved",
   "theorems": [
    "C142_filler",
    "C142_smooth",
    "C142_clamped"
   ],
   "note": "the angular interpolation of the coefficients is the subject of C110-C112"
  },
  {
   "property": "C143",
   "status": "proved",
   "theorems": [
    "C143_smoother",
    "C143_polynomials"
   ],
   "note": ""
  },
  {
   "property": "C144",
   "status": "partial",
   "theorems": [
    "C144_radial",
    "C144_pairs",
    "C144_names",
    "C144_names2",
    "C144_names_refuted"
   ],
   "note": "derivatives and pairs proved; the names are proved except for names with a leading underscore and no index, where they are refuted (C144_names_refuted)"
  },
  {
   "property": "C145",
   "status": "proved",
   "theorems": [
    "C145_C2",
    "C145_C1",
    "C145_C0",
    "C145_aborts"
   ],
   "note": ""
  },
  {
   "property": "C146",
   "status": "partial",
   "theorems": [
    "C146_continuous",
    "C146_decay_refuted",
    "C146_C1_refuted"
   ],
   "note": "continuity proved; decay (C146_decay_refuted) and differentiability (C146_C1_refuted) are refuted"
  },
  {
   "property": "C147",
   "status": "partial",
   "theorems": [
    "C147_kerr_schild",
    "C147_net_spin",
    "C147_too_large",
    "C147_schwarzschild",
    "C147_close_refuted",
    "C147_nan_refuted"
   ],
   "note": "refuted for the binary start-off (C147_close_refuted) and for spins between 1 and 1 + ROUND_OFF_ERR (C147_nan_refuted)"
  },
  {
   "property": "C148",
   "status": "proved",
   "theorems": [
    "C148_step",
    "C148_converges"
   ],
   "note": ""
  },
  {
   "property": "C149",
   "status": "proved",
   "theorems": [
    "C149_spin",
    "C149_step"
   ],
   "note": ""
  },
  {
   "property": "C150",
   "status": "proved",
   "theorems": [
    "C150_step",
    "C150_idle"
   ],
   "note": ""
  },
  {
   "property": "C151",
   "status": "proved",
   "theorems": [
    "C151_euler",
    "C151_force"
   ],
   "note": ""
  },
  {
   "property": "C152",
   "status": "partial",
   "theorems": [
    "C152_interval",
    "C152_root",
    "C152_found",
    "C152_roundoff_refuted"
   ],
   "note": "refuted for values within ROUND_OFF_ERR of the surface at the ends of the interval (C152_roundoff_refuted)"
  },
  {
   "property": "C153",
   "status": "proved",
   "theorems": [
    "C153_history",
    "C153_radii",
    "C153_reset_refuted"
   ],
   "note": "C153_reset_refuted: uninterrupted searches in between do not reset the count"
  },
  {
   "property": "C154",
   "status": "partial",
   "theorems": [
    "C154_unit",
    "C154_derivative",
    "C154_shift",
    "C154_spin_field",
    "C154_normal_partial",
    "C154_normal_refuted"
   ],
   "note": "the vector is normal to the sphere for conformally flat metrics (C154_normal_partial), not in general (C154_normal_refuted)"
  },
  {
   "property": "C155",
   "status": "proved",
   "theorems": [
    "C155_expansion",
    "C155_maximum"
   ],
   "note": ""
  },
  {
   "property": "C156",
   "status": "proved",
   "theorems": [
    "C156_registration",
    "C156_lookup",
    "C156_program"
   ],
   "note": ""
  },
  {
   "property": "C157",
   "status": "proved",
   "theorems": [
    "C157_phi",
    "C157_metric",
    "C157_variants",
    "C157_defaults"
   ],
   "note": ""
  },
  {
   "property": "C158",
   "status": "partial",
   "theorems": [
    "C158_entry",
    "C158_abort",
    "C158_order",
    "C158_region",
    "C158_grid",
    "C158_alias_refuted"
   ],
   "note": "refuted without a prefix: the alias is empty and the solver's look-up stops the program (C158_alias_refuted); a region that merely contains \".*\" is the whole grid"
  },
  {
   "property": "C159",
   "status": "partial",
   "theorems": [
    "C159_loop",
    "C159_round",
    "C159_convergence",
    "C159_newton_weight",
    "C159_alias_refuted",
    "C159_twice_refuted"
   ],
   "note": "proved for fields named once under their own names; refuted for aliased fields (C159_alias_refuted) and repeated names (C159_twice_refuted)"
  },
  {
   "property": "C160",
   "status": "partial",
   "theorems": [
    "C160_momenta",
    "C160_order",
    "C160_abort",
    "C160_none",
    "C160_twice_refuted",
    "C160_loose_refuted",
    "C160_balance",
    "C160_extrapolate"
   ],
   "note": "refuted for texts not of the documented form (C160_loose_refuted) and for repeated words (C160_twice_refuted)"
  },
  {
   "property": "C161",
   "status": "partial",
   "theorems": [
    "C161_outside",
    "C161_harmonic",
    "C161_inside",
    "C161_velocity",
    "C161_velocity_refuted"
   ],
   "note": "the potential is refuted for centres off the axis x = x_CM (C161_velocity_refuted)"
  },
  {
   "property": "C162",
   "status": "proved",
   "theorems": [
    "C162_where",
    "C162_interrupt",
    "C162_idle",
    "C162_taylor",
    "C162_drawn"
   ],
   "note": ""
  },
  {
   "property": "C163",
   "status": "proved",
   "theorems": [
    "C163_commands",
    "C163_total",
    "C163_injective",
    "C163_reset"
   ],
   "note": ""
  },
  {
   "property": "C164",
   "status": "partial",
   "theorems": [
    "C164_objects",
    "C164_undefined",
    "C164_loose_refuted"
   ],
   "note": "refuted that places are checked against each other: both stars may be left, and 'right, not left' is left (C164_loose_refuted)"
  },
  {
   "property": "C165",
   "status": "partial",
   "theorems": [
    "C165_kept",
    "C165_numbered_kept",
    "C165_indexed",
    "C165_split",
    "C165_others",
    "C165_idempotent",
    "C165_grid",
    "C165_careless_refuted"
   ],
   "note": "refuted for texts of the other kind of object: the second star asking for BH_around silently gets NS2_around (C165_careless_refuted); texts that do not fit in the buffers are outside the model's Ok"
  },
  {
   "property": "C166",
   "status": "proved",
   "theorems": [
    "C166_star",
    "C166_hole",
    "C166_stress"
   ],
   "note": ""
  },
  {
   "property": "C167",
   "status": "partial",
   "theorems": [
    "C167_single",
    "C167_double",
    "C167_far",
    "C167_shift_refuted",
    "C167_abort"
   ],
   "note": "refuted for the shift of two holes, beta1 + beta2 - 1, which is -1 far away (C167_shift_refuted)"
  },
  {
   "property": "C168",
   "status": "proved",
   "theorems": [
    "C168_consistent",
    "C168_words"
   ],
   "note": ""
  },
  {
   "property": "C169",
   "status": "proved",
   "theorems": [
    "C169_values",
    "C169_metric",
    "C169_order",
    "C169_empty"
   ],
   "note": ""
  },
  {
   "property": "C170",
   "status": "partial",
   "theorems": [
    "C170_named",
    "C170_one_meaning",
    "C170_safe",
    "C170_loose_refuted"
   ],
   "note": "refuted that only derivatives are accepted: dpsi_U0 and density0 count as derivatives (C170_loose_refuted); names of 100 characters overrun the buffer"
  },
  {
   "property": "C171",
   "status": "partial",
   "theorems": [
    "C171_consistent",
    "C171_success",
    "C171_stages",
    "C171_stale_refuted"
   ],
   "note": "without the condition on the order refuted (C171_stale_refuted); sufficient condition by stages proved (C171_stages)"
  },
  {
   "property": "C172",
   "status": "partial",
   "theorems": [
    "C172_interpolate",
    "C172_success",
    "C172_exact",
    "C172_copy",
    "C172_mode",
    "C172_unchecked_refuted"
   ],
   "note": "patches are compared only when some field is copied (C172_unchecked_refuted)"
  },
  {
   "property": "C173",
   "status": "proved",
   "theorems": [
    "C173_residual",
    "C173_solution",
    "C173_boundary",
    "C173_guess"
   ],
   "note": ""
  },
  {
   "property": "C174",
   "status": "proved",
   "theorems": [
    "C174_jacobian",
    "C174_newton",
    "C174_layout"
   ],
   "note": "the derivative entries themselves are the subject of C59; here they are the matrices of linear operations"
  },
  {
   "property": "C175",
   "status": "proved",
   "theorems": [
    "C175_test",
    "C175_test_success",
    "C175_files",
    "C175_files_success",
    "C175_agree"
   ],
   "note": "patches without nodes stop the convergence test (C175_test_success); decimal places printed are not modelled"
  }
 ]
}