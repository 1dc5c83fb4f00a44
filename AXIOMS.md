# Print Assumptions, theorem by theorem

Generated by tools/axioms.py. All names are axioms of the Coq standard library.

| theorem | axioms |
|---|---|
| C01_names_case_insensitive | none (closed under the global context) |
| C02_database_is_a_map | none (closed under the global context) |
| C03_add_duplicate_aborts | none (closed under the global context) |
| C04_integer_round_trip | none (closed under the global context) |
| C04_set_get_any_database | none (closed under the global context) |
| C05_numeric_reads_are_current_partial | none (closed under the global context) |
| C05_stale_after_set_default_refuted | none (closed under the global context) |
| C06_free_removes_exactly_one | none (closed under the global context) |
| C07_nth_iterative_value | none (closed under the global context) |
| C08_single_multiplicity_one_refuted | none (closed under the global context) |
| C09_multiplicity_expansion | none (closed under the global context) |
| C100_adm_constraints | functional_extensionality_dep, sig_forall_dec, sig_not_dec |
| C100_extrinsic_curvature | functional_extensionality_dep, sig_forall_dec |
| C101_phi_equation | classic, functional_extensionality_dep, sig_forall_dec, sig_not_dec |
| C102_phi_surface_partial | classic, functional_extensionality_dep, sig_forall_dec, sig_not_dec |
| C102_phi_surface_refuted | classic, functional_extensionality_dep, sig_forall_dec, sig_not_dec |
| C103_matter_sources | functional_extensionality_dep, sig_forall_dec, sig_not_dec |
| C104_euler_integral_partial | functional_extensionality_dep, sig_forall_dec, sig_not_dec |
| C104_euler_integral_refuted | functional_extensionality_dep, sig_forall_dec, sig_not_dec |
| C105_force_balance_partial | classic, functional_extensionality_dep, sig_forall_dec, sig_not_dec |
| C105_force_balance_refuted | functional_extensionality_dep, sig_forall_dec |
| C106_spin_and_inspiral | functional_extensionality_dep, sig_forall_dec |
| C107_even_refuted | functional_extensionality_dep, sig_forall_dec, sig_not_dec |
| C107_fourier_1d_partial | functional_extensionality_dep, sig_forall_dec, sig_not_dec |
| C107_wrap_refuted | functional_extensionality_dep, sig_forall_dec, sig_not_dec |
| C108_even_refuted | functional_extensionality_dep, sig_forall_dec, sig_not_dec |
| C108_fourier_2d_partial | functional_extensionality_dep, sig_forall_dec, sig_not_dec |
| C109_fourier_sphere_partial | functional_extensionality_dep, sig_forall_dec, sig_not_dec |
| C109_nyquist_refuted | functional_extensionality_dep, sig_forall_dec, sig_not_dec |
| C10_expansion_terminates | none (closed under the global context) |
| C110_index_all_m | none (closed under the global context) |
| C110_index_nonnegative_m | none (closed under the global context) |
| C111_harmonic_derivatives_partial | functional_extensionality_dep, sig_forall_dec, sig_not_dec |
| C111_harmonics | functional_extensionality_dep, sig_forall_dec, sig_not_dec |
| C111_legendre_functions | functional_extensionality_dep, sig_forall_dec, sig_not_dec |
| C111_specification_exists | functional_extensionality_dep, sig_forall_dec, sig_not_dec |
| C111_theta_derivative_partial | functional_extensionality_dep, sig_forall_dec, sig_not_dec |
| C111_theta_derivative_refuted | functional_extensionality_dep, sig_forall_dec, sig_not_dec |
| C112_coefficients_partial | classic, functional_extensionality_dep, sig_forall_dec, sig_not_dec |
| C112_defined_for_all_sizes_refuted | classic, functional_extensionality_dep, sig_forall_dec, sig_not_dec |
| C112_derivative_tables_partial | classic, functional_extensionality_dep, sig_forall_dec, sig_not_dec |
| C112_gauss_legendre_partial | classic, functional_extensionality_dep, sig_forall_dec, sig_not_dec |
| C112_interpolation | functional_extensionality_dep, sig_forall_dec, sig_not_dec |
| C112_roots | none (closed under the global context) |
| C112_sums_partial | classic, functional_extensionality_dep, sig_forall_dec, sig_not_dec |
| C113_Komar_is_ADM | classic, functional_extensionality_dep, sig_forall_dec, sig_not_dec |
| C113_equations | classic, functional_extensionality_dep, sig_forall_dec, sig_not_dec |
| C113_integrands | classic, functional_extensionality_dep, sig_forall_dec, sig_not_dec |
| C113_isotropic | functional_extensionality_dep, sig_forall_dec, sig_not_dec |
| C113_mass_integral | functional_extensionality_dep, sig_forall_dec, sig_not_dec |
| C114_c_integrand_refuted | functional_extensionality_dep, sig_forall_dec, sig_not_dec |
| C114_centre_mass | functional_extensionality_dep, sig_forall_dec, sig_not_dec |
| C114_centre_refuted | classic, functional_extensionality_dep, sig_forall_dec, sig_not_dec |
| C114_conformal_factor | functional_extensionality_dep, sig_forall_dec, sig_not_dec |
| C114_isotropic_steps | functional_extensionality_dep, sig_forall_dec, sig_not_dec |
| C114_points | functional_extensionality_dep, sig_forall_dec, sig_not_dec |
| C114_profile | functional_extensionality_dep, sig_forall_dec, sig_not_dec |
| C114_step_cubic | functional_extensionality_dep, sig_forall_dec |
| C114_step_linear | functional_extensionality_dep, sig_forall_dec |
| C114_surface | classic, functional_extensionality_dep, sig_forall_dec, sig_not_dec |
| C115_above_maximum_mass_refuted | functional_extensionality_dep, sig_forall_dec |
| C115_converges | functional_extensionality_dep, sig_forall_dec |
| C115_converges_status | functional_extensionality_dep, sig_forall_dec |
| C115_no_star | functional_extensionality_dep, sig_forall_dec |
| C115_report | functional_extensionality_dep, sig_forall_dec |
| C116_array_parameter_refuted | none (closed under the global context) |
| C116_dispatch | none (closed under the global context) |
| C116_documented_MT_safe_for_NSNS_refuted | none (closed under the global context) |
| C116_field_index | none (closed under the global context) |
| C116_nameless_param_refuted | none (closed under the global context) |
| C116_parameter_query | none (closed under the global context) |
| C116_set_param | none (closed under the global context) |
| C117_arrays | none (closed under the global context) |
| C117_short_names | none (closed under the global context) |
| C117_stops | none (closed under the global context) |
| C117_succeeds | none (closed under the global context) |
| C117_thread_safe | none (closed under the global context) |
| C117_thread_safe_not_finite_refuted | none (closed under the global context) |
| C118_coordinates | none (closed under the global context) |
| C118_fields_file | none (closed under the global context) |
| C118_long_first_line | none (closed under the global context) |
| C118_nameless_block_refuted | none (closed under the global context) |
| C119_literal | functional_extensionality_dep, sig_forall_dec, sig_not_dec |
| C119_metric | classic, functional_extensionality_dep, sig_forall_dec, sig_not_dec |
| C119_setup | classic, functional_extensionality_dep, sig_forall_dec, sig_not_dec |
| C119_small_boost_kept_refuted | classic, functional_extensionality_dep, sig_forall_dec, sig_not_dec |
| C11_total_iterations | none (closed under the global context) |
| C120_moving | classic, functional_extensionality_dep, sig_forall_dec, sig_not_dec |
| C120_resting_partial | classic, functional_extensionality_dep, sig_forall_dec, sig_not_dec |
| C121_derivatives | classic, functional_extensionality_dep, sig_forall_dec, sig_not_dec |
| C122_third_mixed_refuted | classic, functional_extensionality_dep, sig_forall_dec, sig_not_dec |
| C122_third_partial | classic, functional_extensionality_dep, sig_forall_dec, sig_not_dec |
| C123_surface_equation | classic, functional_extensionality_dep, sig_forall_dec, sig_not_dec |
| C123_surface_is_horizon_refuted | functional_extensionality_dep, sig_forall_dec, sig_not_dec |
| C124_spin_above_one | functional_extensionality_dep, sig_forall_dec, sig_not_dec |
| C124_start_close_refuted | functional_extensionality_dep, sig_forall_dec, sig_not_dec |
| C124_start_general | functional_extensionality_dep, sig_forall_dec, sig_not_dec |
| C125_Kij | functional_extensionality_dep, sig_forall_dec, sig_not_dec |
| C126_blend | classic, functional_extensionality_dep, sig_forall_dec, sig_not_dec |
| C126_roll_off | classic, functional_extensionality_dep, sig_forall_dec, sig_not_dec |
| C127_conformal | classic, functional_extensionality_dep, sig_forall_dec, sig_not_dec |
| C128_PG_curvature | classic, functional_extensionality_dep, sig_forall_dec, sig_not_dec |
| C128_PG_horizon | functional_extensionality_dep, sig_forall_dec |
| C128_PG_shift_partial | classic, functional_extensionality_dep, sig_forall_dec, sig_not_dec |
| C128_isotropic | classic, functional_extensionality_dep, sig_forall_dec, sig_not_dec |
| C128_isotropic_horizon | functional_extensionality_dep, sig_forall_dec, sig_not_dec |
| C129_surface_momenta | functional_extensionality_dep, sig_forall_dec |
| C12_iteration_counter | none (closed under the global context) |
| C130_gauss | functional_extensionality_dep, sig_forall_dec, sig_not_dec |
| C131_adm_mass | functional_extensionality_dep, sig_forall_dec, sig_not_dec |
| C132_komar | functional_extensionality_dep, sig_forall_dec, sig_not_dec |
| C133_spin_centre | functional_extensionality_dep, sig_forall_dec |
| C134_ossokine | functional_extensionality_dep, sig_forall_dec, sig_not_dec |
| C134_ossokine_refuted | functional_extensionality_dep, sig_forall_dec, sig_not_dec |
| C135_normals | functional_extensionality_dep, sig_forall_dec, sig_not_dec |
| C135_normals_refuted | functional_extensionality_dep, sig_forall_dec, sig_not_dec |
| C136_all | none (closed under the global context) |
| C136_layers | none (closed under the global context) |
| C136_misspelt | none (closed under the global context) |
| C136_select | none (closed under the global context) |
| C137_tables | none (closed under the global context) |
| C138_inner | none (closed under the global context) |
| C138_inventory | none (closed under the global context) |
| C138_kinds | none (closed under the global context) |
| C138_names | none (closed under the global context) |
| C138_tagged | none (closed under the global context) |
| C139_bhbh_refuted | none (closed under the global context) |
| C139_coverage | none (closed under the global context) |
| C139_coverage_refuted | none (closed under the global context) |
| C13_file_parsed_exactly | none (closed under the global context) |
| C140_report | functional_extensionality_dep, sig_forall_dec, sig_not_dec |
| C141_spin | functional_extensionality_dep, sig_forall_dec, sig_not_dec |
| C142_clamped | classic, functional_extensionality_dep, sig_forall_dec, sig_not_dec |
| C142_filler | classic, functional_extensionality_dep, sig_forall_dec, sig_not_dec |
| C142_smooth | classic, functional_extensionality_dep, sig_forall_dec, sig_not_dec |
| C143_polynomials | classic, functional_extensionality_dep, sig_forall_dec, sig_not_dec |
| C143_smoother | classic, functional_extensionality_dep, sig_forall_dec, sig_not_dec |
| C144_names | none (closed under the global context) |
| C144_names2 | none (closed under the global context) |
| C144_names_refuted | none (closed under the global context) |
| C144_pairs | none (closed under the global context) |
| C144_radial | functional_extensionality_dep, sig_forall_dec |
| C145_C0 | classic, functional_extensionality_dep, sig_forall_dec, sig_not_dec |
| C145_C1 | classic, functional_extensionality_dep, sig_forall_dec, sig_not_dec |
| C145_C2 | classic, functional_extensionality_dep, sig_forall_dec, sig_not_dec |
| C145_aborts | functional_extensionality_dep, sig_forall_dec, sig_not_dec |
| C146_C1_refuted | classic, functional_extensionality_dep, sig_forall_dec, sig_not_dec |
| C146_continuous | functional_extensionality_dep, sig_forall_dec, sig_not_dec |
| C146_decay_refuted | classic, functional_extensionality_dep, sig_forall_dec, sig_not_dec |
| C147_close_refuted | functional_extensionality_dep, sig_forall_dec, sig_not_dec |
| C147_kerr_schild | functional_extensionality_dep, sig_forall_dec, sig_not_dec |
| C147_nan_refuted | functional_extensionality_dep, sig_forall_dec, sig_not_dec |
| C147_net_spin | functional_extensionality_dep, sig_forall_dec, sig_not_dec |
| C147_schwarzschild | functional_extensionality_dep, sig_forall_dec |
| C147_too_large | functional_extensionality_dep, sig_forall_dec, sig_not_dec |
| C148_converges | classic, functional_extensionality_dep, sig_forall_dec |
| C148_step | functional_extensionality_dep, sig_forall_dec |
| C149_spin | functional_extensionality_dep, sig_forall_dec, sig_not_dec |
| C149_step | functional_extensionality_dep, sig_forall_dec, sig_not_dec |
| C14_comments_blanks_joins | none (closed under the global context) |
| C150_idle | functional_extensionality_dep, sig_forall_dec |
| C150_step | functional_extensionality_dep, sig_forall_dec |
| C151_euler | functional_extensionality_dep, sig_forall_dec, sig_not_dec |
| C151_force | functional_extensionality_dep, sig_forall_dec |
| C152_found | functional_extensionality_dep, sig_forall_dec |
| C152_interval | functional_extensionality_dep, sig_forall_dec |
| C152_root | functional_extensionality_dep, sig_forall_dec, sig_not_dec |
| C152_roundoff_refuted | functional_extensionality_dep, sig_forall_dec |
| C153_history | none (closed under the global context) |
| C153_radii | none (closed under the global context) |
| C153_reset_refuted | none (closed under the global context) |
| C154_derivative | functional_extensionality_dep, sig_forall_dec, sig_not_dec |
| C154_normal_partial | functional_extensionality_dep, sig_forall_dec, sig_not_dec |
| C154_normal_refuted | functional_extensionality_dep, sig_forall_dec, sig_not_dec |
| C154_shift | functional_extensionality_dep, sig_forall_dec |
| C154_spin_field | functional_extensionality_dep, sig_forall_dec |
| C154_unit | functional_extensionality_dep, sig_forall_dec, sig_not_dec |
| C155_expansion | functional_extensionality_dep, sig_forall_dec |
| C155_maximum | functional_extensionality_dep, sig_forall_dec |
| C156_lookup | none (closed under the global context) |
| C156_program | none (closed under the global context) |
| C156_registration | none (closed under the global context) |
| C157_defaults | none (closed under the global context) |
| C157_metric | none (closed under the global context) |
| C157_phi | none (closed under the global context) |
| C157_variants | none (closed under the global context) |
| C158_abort | none (closed under the global context) |
| C158_alias_refuted | none (closed under the global context) |
| C158_entry | none (closed under the global context) |
| C158_grid | none (closed under the global context) |
| C158_order | none (closed under the global context) |
| C158_region | none (closed under the global context) |
| C159_alias_refuted | functional_extensionality_dep, sig_forall_dec |
| C159_convergence | functional_extensionality_dep, sig_forall_dec |
| C159_loop | functional_extensionality_dep, sig_forall_dec |
| C159_newton_weight | sig_forall_dec |
| C159_round | functional_extensionality_dep, sig_forall_dec |
| C159_twice_refuted | functional_extensionality_dep, sig_forall_dec |
| C15_last_line_lost_refuted | none (closed under the global context) |
| C15_last_line_without_newline_partial | none (closed under the global context) |
| C160_abort | functional_extensionality_dep, sig_forall_dec |
| C160_balance | none (closed under the global context) |
| C160_extrapolate | none (closed under the global context) |
| C160_loose_refuted | functional_extensionality_dep, sig_forall_dec |
| C160_momenta | functional_extensionality_dep, sig_forall_dec |
| C160_none | functional_extensionality_dep, sig_forall_dec |
| C160_order | functional_extensionality_dep, sig_forall_dec |
| C160_twice_refuted | functional_extensionality_dep, sig_forall_dec |
| C161_harmonic | classic, functional_extensionality_dep, sig_forall_dec, sig_not_dec |
| C161_inside | functional_extensionality_dep, sig_forall_dec, sig_not_dec |
| C161_outside | functional_extensionality_dep, sig_forall_dec, sig_not_dec |
| C161_velocity | classic, functional_extensionality_dep, sig_forall_dec, sig_not_dec |
| C161_velocity_refuted | classic, functional_extensionality_dep, sig_forall_dec, sig_not_dec |
| C162_drawn | functional_extensionality_dep, sig_forall_dec |
| C162_idle | functional_extensionality_dep, sig_forall_dec |
| C162_interrupt | sig_forall_dec |
| C162_taylor | classic, functional_extensionality_dep, sig_forall_dec, sig_not_dec |
| C162_where | functional_extensionality_dep, sig_forall_dec, sig_not_dec |
| C163_commands | none (closed under the global context) |
| C163_injective | none (closed under the global context) |
| C163_reset | none (closed under the global context) |
| C163_total | none (closed under the global context) |
| C164_loose_refuted | none (closed under the global context) |
| C164_objects | none (closed under the global context) |
| C164_undefined | none (closed under the global context) |
| C165_careless_refuted | none (closed under the global context) |
| C165_grid | none (closed under the global context) |
| C165_idempotent | none (closed under the global context) |
| C165_indexed | none (closed under the global context) |
| C165_kept | none (closed under the global context) |
| C165_numbered_kept | none (closed under the global context) |
| C165_others | none (closed under the global context) |
| C165_split | none (closed under the global context) |
| C166_hole | none (closed under the global context) |
| C166_star | none (closed under the global context) |
| C166_stress | none (closed under the global context) |
| C167_abort | sig_forall_dec |
| C167_double | sig_forall_dec |
| C167_far | functional_extensionality_dep, sig_forall_dec |
| C167_shift_refuted | functional_extensionality_dep, sig_forall_dec |
| C167_single | sig_forall_dec |
| C168_consistent | none (closed under the global context) |
| C168_words | none (closed under the global context) |
| C169_empty | functional_extensionality_dep, sig_forall_dec, sig_not_dec |
| C169_metric | functional_extensionality_dep, sig_forall_dec, sig_not_dec |
| C169_order | functional_extensionality_dep, sig_forall_dec, sig_not_dec |
| C169_values | functional_extensionality_dep, sig_forall_dec, sig_not_dec |
| C16_items_split | none (closed under the global context) |
| C170_loose_refuted | none (closed under the global context) |
| C170_named | none (closed under the global context) |
| C170_one_meaning | none (closed under the global context) |
| C170_safe | none (closed under the global context) |
| C171_consistent | none (closed under the global context) |
| C171_stages | none (closed under the global context) |
| C171_stale_refuted | none (closed under the global context) |
| C171_success | none (closed under the global context) |
| C172_copy | none (closed under the global context) |
| C172_exact | none (closed under the global context) |
| C172_interpolate | none (closed under the global context) |
| C172_mode | none (closed under the global context) |
| C172_success | none (closed under the global context) |
| C172_unchecked_refuted | none (closed under the global context) |
| C173_boundary | classic, functional_extensionality_dep, sig_forall_dec, sig_not_dec |
| C173_guess | classic, functional_extensionality_dep, sig_forall_dec, sig_not_dec |
| C173_residual | classic, functional_extensionality_dep, sig_forall_dec, sig_not_dec |
| C173_solution | classic, functional_extensionality_dep, sig_forall_dec, sig_not_dec |
| C174_jacobian | classic, functional_extensionality_dep, sig_forall_dec, sig_not_dec |
| C174_layout | none (closed under the global context) |
| C174_newton | classic, functional_extensionality_dep, sig_forall_dec, sig_not_dec |
| C175_agree | functional_extensionality_dep, sig_forall_dec, sig_not_dec |
| C175_files | functional_extensionality_dep, sig_forall_dec |
| C175_files_success | functional_extensionality_dep, sig_forall_dec |
| C175_test | functional_extensionality_dep, sig_forall_dec, sig_not_dec |
| C175_test_success | functional_extensionality_dep, sig_forall_dec, sig_not_dec |
| C17_leading_separator_partial | none (closed under the global context) |
| C17_leading_separator_refuted | none (closed under the global context) |
| C18_parameters_round_trip | none (closed under the global context) |
| C19_fields_round_trip | none (closed under the global context) |
| C20_crash_atomic | none (closed under the global context) |
| C21_modify_overrides_partial | none (closed under the global context) |
| C21_new_iterative_refuted | none (closed under the global context) |
| C22_truncated_rejected_partial | none (closed under the global context) |
| C22_uninitialised_refuted | none (closed under the global context) |
| C23_folders_fresh_partial | none (closed under the global context) |
| C23_open_last | none (closed under the global context) |
| C23_open_reopens_refuted | none (closed under the global context) |
| C24_pool_is_map | none (closed under the global context) |
| C25_coefficients_current_partial | none (closed under the global context) |
| C25_poke_stale_refuted | none (closed under the global context) |
| C26_remove_by_pattern | none (closed under the global context) |
| C27_ijk_bijection | none (closed under the global context) |
| C28_symmetric_pairs | none (closed under the global context) |
| C29_copy | none (closed under the global context) |
| C29_expand | none (closed under the global context) |
| C29_round_trip | none (closed under the global context) |
| C30_too_many_entries_refuted | none (closed under the global context) |
| C30_too_many_exist | none (closed under the global context) |
| C30_valid | none (closed under the global context) |
| C31_corner_refuted | none (closed under the global context) |
| C31_entrywise_partial | none (closed under the global context) |
| C31_refuses | none (closed under the global context) |
| C32_matrix_by_vector | none (closed under the global context) |
| C32_product | none (closed under the global context) |
| C32_product_transposed | none (closed under the global context) |
| C32_product_transposed_into | none (closed under the global context) |
| C33_regular_copy_refuted | none (closed under the global context) |
| C34_stack | none (closed under the global context) |
| C35_lookup_coarse | none (closed under the global context) |
| C35_lookup_partial | none (closed under the global context) |
| C35_not_coarse_grained_refuted | none (closed under the global context) |
| C35_past_the_end_refuted | none (closed under the global context) |
| C36_inverse_partial | functional_extensionality_dep, sig_forall_dec |
| C36_zero_first_entry_refuted | functional_extensionality_dep, sig_forall_dec |
| C37_not_gauss_seidel_refuted | functional_extensionality_dep, sig_forall_dec |
| C37_precondition | functional_extensionality_dep, sig_forall_dec |
| C38_cosine_sum_partial | functional_extensionality_dep, sig_forall_dec, sig_not_dec |
| C38_other_multiples_refuted | classic, functional_extensionality_dep, sig_forall_dec, sig_not_dec |
| C39_bisection | functional_extensionality_dep, sig_forall_dec, sig_not_dec |
| C39_max_iter_best_point_refuted | functional_extensionality_dep, sig_forall_dec |
| C40_dispatch | none (closed under the global context) |
| C41_attributes | none (closed under the global context) |
| C42_aux_fields | none (closed under the global context) |
| C43_dot_in_directory_refuted | none (closed under the global context) |
| C43_names_from_path_partial | none (closed under the global context) |
| C44_line_transform | none (closed under the global context) |
| C45_edges | none (closed under the global context) |
| C46_row_major_partial | none (closed under the global context) |
| C46_row_major_refuted | none (closed under the global context) |
| C47_text_search | none (closed under the global context) |
| C48_check_format | none (closed under the global context) |
| C48_repeated_delimiter_refuted | none (closed under the global context) |
| C49_anchored_refuted | none (closed under the global context) |
| C49_replace_all_partial | none (closed under the global context) |
| C50_list_parameters | none (closed under the global context) |
| C51_new_folder_iff_resolution_changed | none (closed under the global context) |
| C52_boost_partial | functional_extensionality_dep, sig_forall_dec, sig_not_dec |
| C52_slow_refuted | functional_extensionality_dep, sig_forall_dec, sig_not_dec |
| C52_superluminal | functional_extensionality_dep, sig_forall_dec, sig_not_dec |
| C53_rotation_partial | functional_extensionality_dep, sig_forall_dec, sig_not_dec |
| C53_two_angles_refuted | functional_extensionality_dep, sig_forall_dec, sig_not_dec |
| C54_sphe_cart_partial | functional_extensionality_dep, sig_forall_dec, sig_not_dec |
| C54_yz_plane_refuted | functional_extensionality_dep, sig_forall_dec, sig_not_dec |
| C55_at_grid_points | classic, functional_extensionality_dep, sig_forall_dec, sig_not_dec |
| C55_interpolation | classic, functional_extensionality_dep, sig_forall_dec, sig_not_dec |
| C56_first_derivative | classic, functional_extensionality_dep, sig_forall_dec, sig_not_dec |
| C57_overflow_refuted | classic, functional_extensionality_dep, sig_forall_dec, sig_not_dec |
| C57_second_derivative_partial | classic, functional_extensionality_dep, sig_forall_dec, sig_not_dec |
| C58_functional_derivative_partial | classic, functional_extensionality_dep, sig_forall_dec, sig_not_dec |
| C58_overflow_refuted | classic, functional_extensionality_dep, sig_forall_dec, sig_not_dec |
| C59_jacobian_is_derivative | classic, functional_extensionality_dep, sig_forall_dec, sig_not_dec |
| C60_never_worse_refuted | functional_extensionality_dep, sig_forall_dec, sig_not_dec |
| C60_ok_is_root_refuted | functional_extensionality_dep, sig_forall_dec, sig_not_dec |
| C60_steepest_descent | functional_extensionality_dep, sig_forall_dec, sig_not_dec |
| C60_zero_tolerance_refuted | functional_extensionality_dep, sig_forall_dec, sig_not_dec |
| C61_patch_interpolation | classic, functional_extensionality_dep, sig_forall_dec, sig_not_dec |
| C62_integral_unique | classic, functional_extensionality_dep, sig_forall_dec, sig_not_dec |
| C62_volume_integral | classic, functional_extensionality_dep, sig_forall_dec, sig_not_dec |
| C63_interval_integral | classic, functional_extensionality_dep, sig_forall_dec, sig_not_dec |
| C64_surface_integral | classic, functional_extensionality_dep, sig_forall_dec, sig_not_dec |
| C65_inverse_jacobian | functional_extensionality_dep, sig_forall_dec |
| C66_simpson | functional_extensionality_dep, sig_forall_dec |
| C67_defined_for_all_sizes_refuted | functional_extensionality_dep, sig_forall_dec, sig_not_dec |
| C67_factorial | none (closed under the global context) |
| C67_gauss_chebyshev_partial | functional_extensionality_dep, sig_forall_dec, sig_not_dec |
| C68_spectral_filter | classic, functional_extensionality_dep, sig_forall_dec, sig_not_dec |
| C69_density_never_negative_refuted | classic, functional_extensionality_dep, sig_forall_dec, sig_not_dec |
| C69_polytrope | classic, functional_extensionality_dep, sig_forall_dec, sig_not_dec |
| C70_finite_at_surface_refuted | classic, functional_extensionality_dep, sig_forall_dec, sig_not_dec |
| C70_polytrope_derivatives | classic, functional_extensionality_dep, sig_forall_dec, sig_not_dec |
| C71_pwp_construction | classic, functional_extensionality_dep, sig_forall_dec, sig_not_dec |
| C72_every_enthalpy_refuted | classic, functional_extensionality_dep, sig_forall_dec, sig_not_dec |
| C72_pwp_evaluation | classic, functional_extensionality_dep, sig_forall_dec, sig_not_dec |
| C73_last_threshold_refuted | classic, functional_extensionality_dep, sig_forall_dec, sig_not_dec |
| C73_missing_threshold_refuted | classic, functional_extensionality_dep, sig_forall_dec, sig_not_dec |
| C73_one_piece_refuted | classic, functional_extensionality_dep, sig_forall_dec, sig_not_dec |
| C73_pwp_refusals | classic, functional_extensionality_dep, sig_forall_dec, sig_not_dec |
| C74_short_table_refuted | classic, functional_extensionality_dep, sig_forall_dec, sig_not_dec |
| C74_tabular | classic, functional_extensionality_dep, sig_forall_dec, sig_not_dec |
| C75_shift_ignored_refuted | classic, functional_extensionality_dep, sig_forall_dec, sig_not_dec |
| C75_tabular_derivatives_partial | classic, functional_extensionality_dep, sig_forall_dec, sig_not_dec |
| C76_neville_partial | functional_extensionality_dep, sig_forall_dec |
| C76_subsampling_refuted | functional_extensionality_dep, sig_forall_dec |
| C77_edge_refuted | functional_extensionality_dep, sig_forall_dec |
| C77_spline | functional_extensionality_dep, sig_forall_dec |
| C77_spline_plan | functional_extensionality_dep, sig_forall_dec |
| C78_end_and_derivative_refuted | functional_extensionality_dep, sig_forall_dec |
| C78_hermite | functional_extensionality_dep, sig_forall_dec |
| C78_hermite_plan | functional_extensionality_dep, sig_forall_dec |
| C79_checks_refuted | functional_extensionality_dep, sig_forall_dec |
| C79_finite_difference | functional_extensionality_dep, sig_forall_dec |
| C80_beyond_samples_refuted | functional_extensionality_dep, sig_forall_dec |
| C80_spline_eos_partial | functional_extensionality_dep, sig_forall_dec |
| C81_accepted | functional_extensionality_dep, sig_forall_dec, sig_not_dec |
| C81_cartesian | functional_extensionality_dep, sig_forall_dec, sig_not_dec |
| C81_hole_refuted | functional_extensionality_dep, sig_forall_dec, sig_not_dec |
| C81_round_trip_refuted | functional_extensionality_dep, sig_forall_dec, sig_not_dec |
| C81_to_cartesian_partial | functional_extensionality_dep, sig_forall_dec, sig_not_dec |
| C81_to_patch_partial | functional_extensionality_dep, sig_forall_dec, sig_not_dec |
| C82_box_refuted | functional_extensionality_dep, sig_forall_dec, sig_not_dec |
| C82_located_partial | functional_extensionality_dep, sig_forall_dec, sig_not_dec |
| C82_search | functional_extensionality_dep, sig_forall_dec, sig_not_dec |
| C82_six_sides | functional_extensionality_dep, sig_forall_dec |
| C82_third_coordinate | functional_extensionality_dep, sig_forall_dec, sig_not_dec |
| C83_coordinates | functional_extensionality_dep, sig_forall_dec, sig_not_dec |
| C83_determinant_partial | functional_extensionality_dep, sig_forall_dec, sig_not_dec |
| C83_jacobian_partial | functional_extensionality_dep, sig_forall_dec, sig_not_dec |
| C83_varying_radius_refuted | functional_extensionality_dep, sig_forall_dec, sig_not_dec |
| C84_angles_partial | classic, functional_extensionality_dep, sig_forall_dec, sig_not_dec |
| C84_arctan_partial | classic, functional_extensionality_dep, sig_forall_dec, sig_not_dec |
| C84_search_partial | classic, functional_extensionality_dep, sig_forall_dec, sig_not_dec |
| C84_search_sound | classic, functional_extensionality_dep, sig_forall_dec, sig_not_dec |
| C84_snap_refuted | classic, functional_extensionality_dep, sig_forall_dec, sig_not_dec |
| C85_force | functional_extensionality_dep, sig_forall_dec, sig_not_dec |
| C85_force_in_box | functional_extensionality_dep, sig_forall_dec |
| C85_node_exact | functional_extensionality_dep, sig_forall_dec, sig_not_dec |
| C85_node_near | functional_extensionality_dep, sig_forall_dec, sig_not_dec |
| C85_node_partial | functional_extensionality_dep, sig_forall_dec, sig_not_dec |
| C85_node_refuted | functional_extensionality_dep, sig_forall_dec, sig_not_dec |
| C86_drop_bound | functional_extensionality_dep, sig_forall_dec |
| C86_schur_drops | none (closed under the global context) |
| C86_schur_solves | none (closed under the global context) |
| C86_single | none (closed under the global context) |
| C87_closed | none (closed under the global context) |
| C87_numbered | none (closed under the global context) |
| C87_numbering | none (closed under the global context) |
| C88_jacobian | none (closed under the global context) |
| C88_jumps | none (closed under the global context) |
| C89_update | none (closed under the global context) |
| C89_update_single | none (closed under the global context) |
| C90_newton_step | none (closed under the global context) |
| C90_newton_steps | none (closed under the global context) |
| C90_single | none (closed under the global context) |
| C91_continue | none (closed under the global context) |
| C91_history | functional_extensionality_dep, sig_forall_dec, sig_not_dec |
| C91_loop | none (closed under the global context) |
| C91_nan_refuted | none (closed under the global context) |
| C91_residual | functional_extensionality_dep, sig_forall_dec, sig_not_dec |
| C92_checks | none (closed under the global context) |
| C92_collocated_refuted | none (closed under the global context) |
| C92_no_interface_refuted | none (closed under the global context) |
| C92_regular_refuted | none (closed under the global context) |
| C92_self_refuted | none (closed under the global context) |
| C93_christoffel | functional_extensionality_dep, sig_forall_dec |
| C94_ricci | functional_extensionality_dep, sig_forall_dec |
| C95_bssn_partial | classic, functional_extensionality_dep, sig_forall_dec, sig_not_dec |
| C95_given_metric_refuted | classic, functional_extensionality_dep, sig_forall_dec, sig_not_dec |
| C96_psi_equation | classic, functional_extensionality_dep, sig_forall_dec, sig_not_dec |
| C97_lapse_equation | classic, functional_extensionality_dep, sig_forall_dec, sig_not_dec |
| C98_shift_equation_partial | classic, functional_extensionality_dep, sig_forall_dec, sig_not_dec |
| C99_boundary_conditions | functional_extensionality_dep, sig_forall_dec |
| C99_boundary_jacobians | classic, functional_extensionality_dep, sig_forall_dec, sig_not_dec |
